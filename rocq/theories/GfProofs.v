(* The GCM field multiplication of the model against GF(2^128). *)
From Verif Require Import Words TaskModel ModeModel ModeSpec EncSpec.
Open Scope N_scope.
Ltac Zify.zify_post_hook ::= Z.div_mod_to_equations.

Definition word (x : N) : Prop := x < 2 ^ 32.
Definition quad_ok (q : quad) : Prop :=
  let '(a, b, c, d) := q in word a /\ word b /\ word c /\ word d.
Definition qv (q : quad) : N :=
  let '(a, b, c, d) := q in ((a * 2 ^ 32 + b) * 2 ^ 32 + c) * 2 ^ 32 + d.

Lemma lxor_hi_lo : forall a b c d, b < 2 ^ 32 -> d < 2 ^ 32 ->
  N.lxor (a * 2 ^ 32 + b) (c * 2 ^ 32 + d) = N.lxor a c * 2 ^ 32 + N.lxor b d.
Proof.
  intros a b c d Hb Hd.
  assert (N.lxor b d < 2 ^ 32) as Hx by (apply lxor_lt; assumption).
  rewrite <- !lor_add by assumption.
  apply N.bits_inj. intro i. rewrite N.lxor_spec, !N.lor_spec, N.lxor_spec.
  destruct (N.ltb_spec i 32) as [H|H].
  - rewrite !N.shiftl_spec_low by exact H. reflexivity.
  - rewrite !N.shiftl_spec_high', N.lxor_spec by exact H.
    rewrite (testbit_above b 32 i), (testbit_above d 32 i) by assumption.
    rewrite xorb_false_l, !orb_false_r. reflexivity.
Qed.

Lemma qxor_val : forall a b, quad_ok a -> quad_ok b -> qv (qxor a b) = N.lxor (qv a) (qv b).
Proof.
  intros [[[a0 a1] a2] a3] [[[b0 b1] b2] b3] [? [? [? ?]]] [? [? [? ?]]]. unfold qv, qxor, word in *.
  rewrite !lxor_hi_lo by assumption. reflexivity.
Qed.
Lemma qxor_ok : forall a b, quad_ok a -> quad_ok b -> quad_ok (qxor a b).
Proof.
  intros [[[a0 a1] a2] a3] [[[b0 b1] b2] b3] [? [? [? ?]]] [? [? [? ?]]]. unfold quad_ok, qxor, word in *.
  repeat split; apply lxor_lt; assumption.
Qed.
Lemma qv_lt : forall q, quad_ok q -> qv q < 2 ^ 128.
Proof. intros [[[a b] c] d] [? [? [? ?]]]. unfold qv, word in *. lia. Qed.

Lemma lor_comm_add : forall a b k, a < 2 ^ k -> N.lor (b * 2 ^ k) a = b * 2 ^ k + a.
Proof. intros a b k H. rewrite <- N.shiftl_mul_pow2, lor_add by exact H. rewrite <- N.shiftl_mul_pow2. reflexivity. Qed.

Lemma shr1 : forall a b, word a -> word b ->
  N.lor (shlw 32 a 31) (N.shiftr b 1) = (a mod 2) * 2 ^ 31 + b / 2.
Proof.
  intros a b Ha Hb. unfold shlw, word in *. rewrite N.shiftl_mul_pow2, shiftr_div.
  replace ((a * 2 ^ 31) mod 2 ^ 32) with ((a mod 2) * 2 ^ 31) by lia.
  apply lor_comm_add. change (2 ^ 1) with 2. lia.
Qed.
Lemma shl1 : forall a b, word a -> word b ->
  N.lor (shlw 32 a 1) (N.shiftr b 31) = (2 * a) mod 2 ^ 32 + b / 2 ^ 31.
Proof.
  intros a b Ha Hb. unfold shlw, word in *. rewrite N.shiftl_mul_pow2, shiftr_div.
  replace ((a * 2 ^ 1) mod 2 ^ 32) with ((a mod 2 ^ 31) * 2 ^ 1) by lia.
  rewrite lor_comm_add by lia. lia.
Qed.

Lemma rsh128_val : forall q, quad_ok q -> quad_ok (rsh128 q) /\ qv (rsh128 q) = qv q / 2.
Proof.
  intros [[[a b] c] d] [? [? [? ?]]]. unfold rsh128, quad_ok, qv.
  rewrite !shr1 by assumption. rewrite shiftr_div. unfold word in *.
  change (2 ^ 1) with 2. split; [repeat split; lia|lia].
Qed.
Lemma lsh128_val : forall q, quad_ok q -> quad_ok (lsh128 q) /\ qv (lsh128 q) = (2 * qv q) mod 2 ^ 128.
Proof.
  intros [[[a b] c] d] [? [? [? ?]]]. unfold lsh128, quad_ok, qv.
  rewrite !shl1 by assumption. unfold shlw. rewrite N.shiftl_mul_pow2. unfold word in *.
  split; [repeat split; lia|lia].
Qed.

Lemma top_bit : forall q, quad_ok q -> (let '(a, _, _, _) := q in N.shiftr a 31 =? 0) = negb (N.testbit (qv q) 127).
Proof.
  intros [[[a b] c] d] [? [? [? ?]]]. unfold word, qv in *. rewrite shiftr_div.
  rewrite N.testbit_eqb.
  replace ((((a * 2 ^ 32 + b) * 2 ^ 32 + c) * 2 ^ 32 + d) / 2 ^ 127) with (a / 2 ^ 31) by lia.
  assert (a / 2 ^ 31 = 0 \/ a / 2 ^ 31 = 1) as [-> | ->] by lia; reflexivity.
Qed.
Lemma low_bit : forall q, quad_ok q -> (let '(_, _, _, d) := q in N.land d 1 =? 0) = negb (N.testbit (qv q) 0).
Proof.
  intros [[[a b] c] d] [? [? [? ?]]]. unfold word, qv in *. rewrite (land_low d 1) by reflexivity.
  rewrite N.testbit_eqb. change (2 ^ 0) with 1. rewrite N.div_1_r.
  replace ((((a * 2 ^ 32 + b) * 2 ^ 32 + c) * 2 ^ 32 + d) mod 2) with (d mod 2 ^ 1) by lia.
  assert (d mod 2 ^ 1 = 0 \/ d mod 2 ^ 1 = 1) as [-> | ->] by (change (2^1) with 2; lia); reflexivity.
Qed.

Lemma gf_step_nist : forall zz v t x z w i, quad_ok zz -> quad_ok v -> quad_ok t ->
  qv zz = z -> qv v = w -> qv t = (x * 2 ^ N.of_nat i) mod 2 ^ 128 -> (i < 128)%nat ->
  let '(zz', v', t') := gf_step (zz, v, t) in
  quad_ok zz' /\ quad_ok v' /\ quad_ok t' /\
  nist_step x (z, w) i = (qv zz', qv v') /\ qv t' = (x * 2 ^ N.of_nat (S i)) mod 2 ^ 128.
Proof.
  intros zz v t x z w i Hz Hv Ht Ez Ew Et Hi.
  unfold gf_step. pose proof (top_bit t Ht) as Htop. pose proof (low_bit v Hv) as Hlow.
  destruct t as [[[t0 t1] t2] t3]. destruct v as [[[v0 v1] v2] v3]. rewrite Htop, Hlow. clear Htop Hlow.
  pose proof (lsh128_val _ Ht) as [Hl1 Hl2]. pose proof (rsh128_val _ Hv) as [Hr1 Hr2].
  assert (N.testbit (qv (t0, t1, t2, t3)) 127 = N.testbit x (127 - N.of_nat i)) as Hb.
  { rewrite Et. rewrite N.mod_pow2_bits_low by lia. rewrite <- N.shiftl_mul_pow2.
    rewrite N.shiftl_spec_high' by lia. reflexivity. }
  rewrite Hb. unfold nist_step. rewrite <- Ew. rewrite <- Ez.
  assert (quad_ok (0xE1000000, 0, 0, 0)) as HR by (unfold quad_ok, word; repeat split; lia).
  assert (qv (0xE1000000, 0, 0, 0) = 0xE1 * 2 ^ 120) as HRv by reflexivity.
  split; [|split; [|split; [|split]]].
  - destruct (N.testbit x _); cbn [negb]; [apply qxor_ok|]; assumption.
  - destruct (N.testbit _ 0); cbn [negb]; [apply qxor_ok|]; assumption.
  - exact Hl1.
  - f_equal.
    + destruct (N.testbit x _); cbn [negb]; [rewrite qxor_val by assumption|]; reflexivity.
    + destruct (N.testbit _ 0); cbn [negb]; [rewrite qxor_val by assumption; rewrite HRv|]; rewrite Hr2; reflexivity.
  - rewrite Hl2, Et. rewrite N.mul_mod_idemp_r by discriminate. f_equal.
    rewrite Nat2N.inj_succ, N.pow_succ_r by lia. lia.
Qed.

Lemma gf_loop_nist : forall x y n, (n <= 128)%nat -> quad_ok x -> quad_ok y ->
  let '(zz, v, t) := Nat.iter n gf_step ((0, 0, 0, 0), y, x) in
  quad_ok zz /\ quad_ok v /\ quad_ok t /\
  fold_left (nist_step (qv x)) (seq 0 n) (0, qv y) = (qv zz, qv v) /\
  qv t = (qv x * 2 ^ N.of_nat n) mod 2 ^ 128.
Proof.
  intros x y n. induction n as [|n IH]; intros Hn Hx Hy.
  - cbn [Nat.iter nat_rect]. repeat split; auto; try (unfold word; lia).
    change (N.of_nat 0) with 0. rewrite N.pow_0_r, N.mul_1_r. symmetry. apply N.mod_small. apply qv_lt. exact Hx.
  - specialize (IH ltac:(lia) Hx Hy). cbn [Nat.iter nat_rect].
    change (nat_rect _ _ _ n) with (Nat.iter n gf_step ((0, 0, 0, 0), y, x)).
    destruct (Nat.iter n gf_step _) as [[zz v] t]. destruct IH as [Hz [Hv [Ht [Hf He]]]].
    pose proof (gf_step_nist zz v t (qv x) (qv zz) (qv v) n Hz Hv Ht eq_refl eq_refl He ltac:(lia)) as Hs.
    destruct (gf_step (zz, v, t)) as [[zz' v'] t']. destruct Hs as [? [? [? [Hs ?]]]].
    repeat (split; [assumption|]). split; [|assumption].
    rewrite seq_S, fold_left_app, Hf. cbn [fold_left Nat.add]. exact Hs.
Qed.

Lemma gf_mul_nist : forall x y, quad_ok x -> quad_ok y ->
  quad_ok (gf_mul x y) /\ qv (gf_mul x y) = nist_mult (qv x) (qv y).
Proof.
  intros x y Hx Hy. pose proof (gf_loop_nist x y 128 (le_n _) Hx Hy) as H.
  unfold gf_mul, nist_mult. destruct (Nat.iter 128 gf_step _) as [[zz v] t].
  destruct H as [H1 [_ [_ [-> _]]]]. split; [exact H1|reflexivity].
Qed.

(* ----------------------------------------------------- polynomials *)
Lemma clmul_double_l : forall a b, clmul (2 * a) b = 2 * clmul a b.
Proof. intros [|p] b; [reflexivity|]. reflexivity. Qed.
Lemma clmul_pos_succ_double : forall a b, clmul (N.succ_double a) b = N.lxor b (2 * clmul a b).
Proof. intros [|p] b; [cbn; rewrite N.lxor_0_r; reflexivity|]. reflexivity. Qed.

Lemma double_lxor : forall a b, 2 * N.lxor a b = N.lxor (2 * a) (2 * b).
Proof.
  intros a b. rewrite <- !N.double_spec. destruct a as [|p], b as [|q]; try reflexivity.
Qed.

Lemma clmul_double : forall a b, clmul (N.double a) b = 2 * clmul a b.
Proof. intros [|p] b; reflexivity. Qed.

Lemma lxor_swap : forall a b c d, N.lxor (N.lxor a b) (N.lxor c d) = N.lxor (N.lxor a c) (N.lxor b d).
Proof. intros. rewrite !N.lxor_assoc. f_equal. rewrite <- !N.lxor_assoc. f_equal. apply N.lxor_comm. Qed.

Lemma clmul_lxor_l : forall a c b, clmul (N.lxor a c) b = N.lxor (clmul a b) (clmul c b).
Proof.
  intros [|p] [|q] b; try reflexivity.
  - symmetry. apply N.lxor_0_r.
  - change (clmul (Npos p) b) with (clmul_pos p b). change (clmul (Npos q) b) with (clmul_pos q b).
    revert q. induction p as [p IH|p IH|]; intros [q|q|]; cbn [clmul_pos].
    + change (N.lxor (Npos p~1) (Npos q~1)) with (N.double (N.lxor (Npos p) (Npos q))).
      rewrite clmul_double, IH, double_lxor, (lxor_swap b), N.lxor_nilpotent, N.lxor_0_l. reflexivity.
    + change (N.lxor (Npos p~1) (Npos q~0)) with (N.succ_double (N.lxor (Npos p) (Npos q))).
      rewrite clmul_pos_succ_double, IH, double_lxor, N.lxor_assoc. reflexivity.
    + change (N.lxor (Npos p~1) 1) with (N.double (Npos p)). rewrite clmul_double.
      rewrite N.lxor_comm, <- N.lxor_assoc, N.lxor_nilpotent, N.lxor_0_l. reflexivity.
    + change (N.lxor (Npos p~0) (Npos q~1)) with (N.succ_double (N.lxor (Npos p) (Npos q))).
      rewrite clmul_pos_succ_double, IH, double_lxor, <- !N.lxor_assoc. f_equal. apply N.lxor_comm.
    + change (N.lxor (Npos p~0) (Npos q~0)) with (N.double (N.lxor (Npos p) (Npos q))).
      rewrite clmul_double, IH, double_lxor. reflexivity.
    + change (N.lxor (Npos p~0) 1) with (N.succ_double (Npos p)). rewrite clmul_pos_succ_double.
      apply N.lxor_comm.
    + change (N.lxor 1 (Npos q~1)) with (N.double (Npos q)). rewrite clmul_double.
      rewrite <- N.lxor_assoc, N.lxor_nilpotent, N.lxor_0_l. reflexivity.
    + change (N.lxor 1 (Npos q~0)) with (N.succ_double (Npos q)). rewrite clmul_pos_succ_double. reflexivity.
    + rewrite (N.lxor_nilpotent b). reflexivity.
Qed.

Lemma clmul_pow2 : forall n b, clmul (2 ^ N.of_nat n) b = b * 2 ^ N.of_nat n.
Proof.
  induction n as [|n IH]; intro b.
  - change (2 ^ N.of_nat 0) with 1. rewrite N.mul_1_r. reflexivity.
  - rewrite Nat2N.inj_succ, N.pow_succ_r by lia. rewrite clmul_double_l, IH. lia.
Qed.

Lemma congr_refl : forall a, gf_congr a a.
Proof. intro a. exists 0. rewrite N.lxor_nilpotent. reflexivity. Qed.
Lemma congr_lxor : forall a b c d, gf_congr a b -> gf_congr c d -> gf_congr (N.lxor a c) (N.lxor b d).
Proof.
  intros a b c d [q Hq] [r Hr]. exists (N.lxor q r). rewrite clmul_lxor_l, <- Hq, <- Hr. apply lxor_swap.
Qed.
Lemma congr_double : forall a b, gf_congr a b -> gf_congr (2 * a) (2 * b).
Proof. intros a b [q Hq]. exists (2 * q). rewrite clmul_double_l, <- Hq. symmetry. apply double_lxor. Qed.
Lemma congr_mod : forall a b, gf_congr a b -> gf_congr a (N.lxor b gf_modulus).
Proof.
  intros a b [q Hq]. exists (N.lxor q 1). rewrite clmul_lxor_l, <- Hq.
  change (clmul 1 gf_modulus) with gf_modulus. symmetry. apply N.lxor_assoc.
Qed.

Lemma rev_bits_lt : forall n v, rev_bits n v < 2 ^ N.of_nat n.
Proof.
  induction n as [|n IH]; intro v; [cbn; lia|].
  cbn [rev_bits]. specialize (IH (v / 2)). rewrite Nat2N.inj_succ, N.pow_succ_r by lia.
  assert (v mod 2 = 0 \/ v mod 2 = 1) as [-> | ->] by lia; lia.
Qed.
Lemma rev_bits_testbit : forall n v i, N.testbit (rev_bits n v) i =
  (i <? N.of_nat n) && N.testbit v (N.of_nat n - 1 - i).
Proof.
  induction n as [|n IH]; intros v i.
  - cbn. destruct i; reflexivity.
  - cbn [rev_bits]. rewrite <- lor_comm_add by apply rev_bits_lt.
    rewrite N.lor_spec, IH, <- N.shiftl_mul_pow2.
    destruct (N.ltb_spec i (N.of_nat n)) as [H|H].
    + rewrite N.shiftl_spec_low by exact H. cbn [orb andb].
      destruct (N.ltb_spec i (N.of_nat (S n))) as [H2|H2]; [|lia]. cbn [andb].
      replace (v / 2) with (N.shiftr v 1) by (rewrite shiftr_div; reflexivity).
      rewrite N.shiftr_spec by lia. f_equal. lia.
    + rewrite N.shiftl_spec_high' by exact H. rewrite orb_false_r.
      destruct (N.ltb_spec i (N.of_nat (S n))) as [H2|H2].
      * replace (i - N.of_nat n) with 0 by lia. replace (N.of_nat (S n) - 1 - i) with 0 by lia.
        cbn [andb]. change 2 with (2 ^ 1) at 1. rewrite N.mod_pow2_bits_low by lia. reflexivity.
      * cbn [andb]. apply (testbit_above _ 1); [change (2^1) with 2; lia|lia].
Qed.

Lemma rev_bits_lxor : forall n a b, rev_bits n (N.lxor a b) = N.lxor (rev_bits n a) (rev_bits n b).
Proof.
  intros n a b. apply N.bits_inj. intro i. rewrite N.lxor_spec, !rev_bits_testbit, N.lxor_spec.
  destruct (i <? N.of_nat n); reflexivity.
Qed.

Lemma rev_half : forall v, v < 2 ^ 128 ->
  poly_of_block (v / 2) = if N.testbit v 0 then N.lxor (2 * poly_of_block v) (2 ^ 128)
                          else 2 * poly_of_block v.
Proof.
  intros v Hv. unfold poly_of_block. apply N.bits_inj. intro i.
  replace (v / 2) with (N.shiftr v 1) by (rewrite shiftr_div; reflexivity).
  rewrite rev_bits_testbit. change (N.of_nat 128) with 128.
  assert (N.testbit (2 * rev_bits 128 v) i = negb (i =? 0) && (i <? 129) && N.testbit v (128 - i)) as Hd.
  { destruct (N.eqb_spec i 0) as [->|Hi].
    - rewrite N.testbit_even_0. reflexivity.
    - replace i with (N.succ (i - 1)) at 1 by lia. rewrite N.testbit_even_succ by lia.
      rewrite rev_bits_testbit. change (N.of_nat 128) with 128. cbn [negb andb].
      f_equal; [|f_equal; lia].
      destruct (N.ltb_spec (i - 1) 128), (N.ltb_spec i 129); try reflexivity; lia. }
  rewrite N.shiftr_spec by lia.
  destruct (N.testbit v 0) eqn:E0.
  - rewrite N.lxor_spec, Hd, N.pow2_bits_eqb. clear Hd.
    destruct (N.eqb_spec i 0) as [->|Hi].
    + cbn. apply (testbit_above v 128); [exact Hv|lia].
    + destruct (N.ltb_spec i 128) as [H|H].
      * destruct (N.ltb_spec i 129); [|lia]. destruct (N.eqb_spec 128 i); [lia|].
        cbn [negb andb]. rewrite xorb_false_r. f_equal. lia.
      * destruct (N.eqb_spec 128 i) as [<-|Hn].
        -- change (128 - 128) with 0. rewrite E0. reflexivity.
        -- destruct (N.ltb_spec i 129); [lia|]. cbn [negb andb]. reflexivity.
  - rewrite Hd. clear Hd. destruct (N.eqb_spec i 0) as [->|Hi].
    + cbn. apply (testbit_above v 128); [exact Hv|lia].
    + destruct (N.ltb_spec i 128) as [H|H].
      * destruct (N.ltb_spec i 129); [|lia]. cbn [negb andb]. f_equal. lia.
      * cbn [negb andb]. destruct (N.ltb_spec i 129) as [H2|H2]; [|reflexivity].
        replace (128 - i) with 0 by lia. rewrite E0. reflexivity.
Qed.

Definition nist_v (v : N) : N := if N.testbit v 0 then N.lxor (v / 2) (0xE1 * 2 ^ 120) else v / 2.

Lemma nist_v_poly : forall v, v < 2 ^ 128 ->
  nist_v v < 2 ^ 128 /\ gf_congr (2 * poly_of_block v) (poly_of_block (nist_v v)).
Proof.
  intros v Hv. unfold nist_v. pose proof (rev_half v Hv) as Hr.
  destruct (N.testbit v 0).
  - split.
    + apply lxor_lt; lia.
    + unfold poly_of_block in *. rewrite rev_bits_lxor, Hr.
      replace (rev_bits 128 (0xE1 * 2 ^ 120)) with (N.lxor gf_modulus (2 ^ 128)) by reflexivity.
      rewrite lxor_swap, (N.lxor_comm gf_modulus), N.lxor_assoc || idtac.
      replace (N.lxor (N.lxor (2 * rev_bits 128 v) (2 ^ 128)) (N.lxor gf_modulus (2 ^ 128)))
        with (N.lxor (2 * rev_bits 128 v) gf_modulus).
      * apply congr_mod, congr_refl.
      * rewrite lxor_swap, N.lxor_nilpotent, N.lxor_0_r. reflexivity.
  - split; [lia|]. rewrite Hr. apply congr_refl.
Qed.

Lemma congr_trans : forall a b c, gf_congr a b -> gf_congr b c -> gf_congr a c.
Proof.
  intros a b c [q Hq] [r Hr]. exists (N.lxor q r). rewrite clmul_lxor_l, <- Hq, <- Hr.
  rewrite N.lxor_assoc, <- (N.lxor_assoc b b c), N.lxor_nilpotent, N.lxor_0_l. reflexivity.
Qed.

Lemma mod_pow2_succ : forall a n, a mod 2 ^ N.succ n =
  N.lxor (a mod 2 ^ n) (if N.testbit a n then 2 ^ n else 0).
Proof.
  intros a n. apply N.bits_inj. intro i. rewrite N.lxor_spec.
  assert (N.testbit (if N.testbit a n then 2 ^ n else 0) i = N.testbit a n && (n =? i)) as ->.
  { destruct (N.testbit a n); [rewrite N.pow2_bits_eqb; reflexivity|]. apply N.bits_0. }
  destruct (N.ltb_spec i n) as [H|H].
  - rewrite !N.mod_pow2_bits_low by lia. destruct (N.eqb_spec n i); [lia|].
    rewrite andb_false_r, xorb_false_r. reflexivity.
  - rewrite (N.mod_pow2_bits_high a n) by lia. rewrite xorb_false_l.
    destruct (N.eqb_spec n i) as [<-|Hn].
    + rewrite N.mod_pow2_bits_low by lia. rewrite andb_true_r. reflexivity.
    + rewrite N.mod_pow2_bits_high by lia. rewrite andb_false_r. reflexivity.
Qed.

Lemma nist_loop : forall x y n, (n <= 128)%nat -> x < 2 ^ 128 -> y < 2 ^ 128 ->
  let '(z, v) := fold_left (nist_step x) (seq 0 n) (0, y) in
  z < 2 ^ 128 /\ v < 2 ^ 128 /\
  gf_congr (poly_of_block y * 2 ^ N.of_nat n) (poly_of_block v) /\
  gf_congr (clmul (poly_of_block x mod 2 ^ N.of_nat n) (poly_of_block y)) (poly_of_block z).
Proof.
  intros x y n. induction n as [|n IH]; intros Hn Hx Hy.
  - cbn [seq fold_left]. split; [lia|]. split; [exact Hy|]. change (2 ^ N.of_nat 0) with 1.
    rewrite N.mul_1_r, N.mod_1_r. split; apply congr_refl.
  - specialize (IH ltac:(lia) Hx Hy). rewrite seq_S, fold_left_app.
    destruct (fold_left _ (seq 0 n) _) as [z v]. destruct IH as [Hz [Hv [Hcv Hcz]]].
    cbn [fold_left Nat.add nist_step].
    change (if N.testbit v 0 then N.lxor (v / 2) (0xE1 * 2 ^ 120) else v / 2) with (nist_v v).
    destruct (nist_v_poly v Hv) as [Hv2 Hvc].
    split; [destruct (N.testbit x _); [apply lxor_lt|]; assumption|].
    split; [exact Hv2|]. split.
    + rewrite Nat2N.inj_succ, N.pow_succ_r by lia.
      replace (poly_of_block y * (2 * 2 ^ N.of_nat n)) with (2 * (poly_of_block y * 2 ^ N.of_nat n)) by lia.
      eapply congr_trans; [apply congr_double; exact Hcv|exact Hvc].
    + rewrite Nat2N.inj_succ, mod_pow2_succ, clmul_lxor_l.
      assert (N.testbit (poly_of_block x) (N.of_nat n) = N.testbit x (127 - N.of_nat n)) as ->.
      { unfold poly_of_block. rewrite rev_bits_testbit. change (N.of_nat 128) with 128.
        destruct (N.ltb_spec (N.of_nat n) 128); [|lia]. cbn [andb]. f_equal. }
      destruct (N.testbit x _).
      * unfold poly_of_block at 4. rewrite rev_bits_lxor. rewrite clmul_pow2. apply congr_lxor; assumption.
      * cbn [clmul]. rewrite N.lxor_0_r. exact Hcz.
Qed.

Lemma nist_mult_poly : forall x y, x < 2 ^ 128 -> y < 2 ^ 128 ->
  nist_mult x y < 2 ^ 128 /\
  gf_congr (clmul (poly_of_block x) (poly_of_block y)) (poly_of_block (nist_mult x y)).
Proof.
  intros x y Hx Hy. pose proof (nist_loop x y 128 (le_n _) Hx Hy) as H. unfold nist_mult.
  destruct (fold_left _ _ _) as [z v]. destruct H as [Hz [_ [_ H]]].
  rewrite N.mod_small in H. { split; assumption. }
  change (2 ^ N.of_nat 128) with (2 ^ N.of_nat 128). apply rev_bits_lt.
Qed.
