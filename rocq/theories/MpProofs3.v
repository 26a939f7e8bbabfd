From Verif Require Import Words MpModel MpSpec MpProofs MpProofs2.
From Verif Require HashProofs StreamProofs RabbitProofs CipherLib.
From Coq Require Import PeanoNat.
Open Scope N_scope.
Notation dv := digits_val.

(* ---- powers *)
Definition horner (l : list bool) (a : N) : N := fold_left (fun a (b : bool) => 2 * a + (if b then 1 else 0)) l a.
Lemma horner_app : forall l m a, horner (l ++ m) a = horner m (horner l a). Proof. intros. apply fold_left_app. Qed.
Lemma horner_bits : forall d n a, horner (map (fun i => N.testbit d (N.of_nat i)) (rev (seq 0 n))) a = a * 2 ^ N.of_nat n + d mod 2 ^ N.of_nat n.
Proof.
  induction n as [|n IH]; intro a; [cbn [seq rev map horner fold_left]; change (2 ^ N.of_nat 0) with 1; rewrite N.mod_1_r; unfold horner; cbn [fold_left]; lia|].
  rewrite seq_S, rev_app_distr, map_app, horner_app. cbn [rev app map]. rewrite IH. unfold horner. cbn [fold_left Nat.add].
  rewrite Nat2N.inj_succ, N.pow_succ_r'. assert (d mod (2 * 2 ^ N.of_nat n) = (if N.testbit d (N.of_nat n) then 2 ^ N.of_nat n else 0) + d mod 2 ^ N.of_nat n) as ->.
  { rewrite (N.mul_comm 2). rewrite N.mod_mul_r by (try apply N.pow_nonzero; discriminate). rewrite <- N.testbit_spec' with (a := d) (n := N.of_nat n). destruct (N.testbit d (N.of_nat n)); cbn [N.b2n]; lia. }
  destruct (N.testbit d (N.of_nat n)); lia.
Qed.
Lemma bitmap_val : forall l, wd l -> forall a, horner (concat (map digit_bits (rev l))) a = a * B ^ N.of_nat (length l) + dv l.
Proof.
  induction l as [|d l IH]; intros W a; [cbn [rev map concat length digits_val]; change (B ^ N.of_nat 0) with 1; unfold horner; cbn [fold_left]; lia|].
  apply Forall_cons_iff in W. destruct W as [Hd W]. cbn [rev]. rewrite map_app, concat_app, horner_app, IH by exact W. cbn [map concat]. rewrite app_nil_r. unfold digit_bits. rewrite horner_bits.
  change (2 ^ N.of_nat 64) with (2 ^ 64). rewrite <- B_eq, N.mod_small by exact Hd. cbn [length digits_val]. rewrite powB_S. ring.
Qed.
Lemma bitmap_ok : forall e, well_formed e -> horner (bitmap e) 0 = magnitude e.
Proof. intros e W. apply wf1 in W. unfold bitmap. rewrite bitmap_val by apply W. rewrite mag. lia. Qed.
Lemma pow_dbl : forall m x (b : bool), m ^ (2 * x + (if b then 1 else 0)) = m ^ x * m ^ x * (if b then m else 1).
Proof. intros m x b. rewrite N.pow_add_r. replace (2 * x) with (x + x) by lia. rewrite N.pow_add_r. destruct b; [rewrite N.pow_1_r|rewrite N.pow_0_r]; reflexivity. Qed.
Lemma mp_pow_ok : forall g e, pos g -> well_formed e -> pos (mp_pow g e) /\ magnitude (mp_pow g e) = magnitude g ^ magnitude e.
Proof.
  intros g e Pg We. rewrite <- (bitmap_ok e We). unfold mp_pow.
  assert (forall l A x, pos A -> magnitude A = magnitude g ^ x ->
    let r := fold_left (fun A (b : bool) => let A := mp_mul (Some A) A in if b then mp_mul (Some A) g else A) l A in pos r /\ magnitude r = magnitude g ^ horner l x) as H.
  { induction l as [|b l IH]; intros A x PA MA; cbv zeta; cbn [fold_left]; [split; assumption|].
    destruct (mp_mul_ok A A (proj1 PA) (proj1 PA)) as (W1 & N1 & M1 & _). apply (IH _ (2 * x + (if b then 1 else 0))).
    - destruct b; [|split; assumption]. destruct (mp_mul_ok (mp_mul (Some A) A) g W1 (proj1 Pg)) as (W2 & N2 & _). split; assumption.
    - rewrite pow_dbl, <- MA. destruct b; [|rewrite M1; lia]. destruct (mp_mul_ok (mp_mul (Some A) A) g W1 (proj1 Pg)) as (_ & _ & M2 & _). rewrite M2, M1. reflexivity. }
  apply (H (bitmap e) (num 1) 0); [split; [apply wf_num; pose proof B_gt; lia|reflexivity]|]. rewrite mag_num, N.pow_0_r. reflexivity.
Qed.
Lemma one_digit_leads : forall x n, n < B -> no_equal_leads x n.
Proof.
  intros x n HB k s j K H1 H2 H3. rewrite <- B_eq in *. exfalso. assert (B ^ 1 <= B ^ (k - 1)) as G by (apply N.pow_le_mono_r; [apply B_nz|lia]). rewrite N.pow_1_r in G. lia.
Qed.
Lemma reduce_ok : forall A n, pos A -> pos n -> magnitude n <> 0 -> exists r, reduce A n = Done r /\ pos r /\ magnitude r mod magnitude n = magnitude A mod magnitude n /\
  (magnitude n < B -> trimmed_digits n -> magnitude r < magnitude n).
Proof.
  intros A n PA Pn Hn. unfold reduce. destruct (mp_div_ok A n PA Pn Hn) as (q & r & E & _ & Pr & V & L). rewrite E. cbn [obind]. exists r. split; [reflexivity|]. split; [exact Pr|]. split; [rewrite V, N.add_comm, N.mod_add by exact Hn; reflexivity|].
  intros HB T. apply L; [exact T|]. apply one_digit_leads, HB.
Qed.
Lemma reduce_zero : forall A n, pos n -> magnitude n = 0 -> reduce A n = UB.
Proof. intros A n Pn Hn. unfold reduce, mp_div. rewrite mag in Hn. apply is_zero_dv in Hn. rewrite Hn. reflexivity. Qed.
Lemma bitmap_len : forall e, well_formed e -> (1 <= length (bitmap e))%nat.
Proof.
  intros e W. pose proof (wf_size e W) as S1. unfold bitmap, size in *. rewrite <- (rev_length (data e)) in S1. destruct (rev (data e)); cbn [length] in S1; [lia|]. cbn [map concat]. rewrite app_length. unfold digit_bits at 1. rewrite map_length, rev_length, seq_length. lia.
Qed.
(* the result is congruent to the power; the last step is a reduction *)
Lemma me_step_ok : forall m n A b, pos m -> pos n -> magnitude n <> 0 -> pos A -> exists r, me_step m n (Done A) b = Done r /\ pos r /\
  magnitude r mod magnitude n = (magnitude A * magnitude A * (if b then magnitude m else 1)) mod magnitude n /\ (magnitude n < B -> trimmed_digits n -> magnitude r < magnitude n).
Proof.
  intros m n A b Pm Pn Hn PA. cbn [me_step obind]. destruct (mp_mul_ok A A (proj1 PA) (proj1 PA)) as (W1 & N1 & M1 & _).
  destruct (reduce_ok (mp_mul (Some A) A) n (conj W1 N1) Pn Hn) as (r & E & Pr & V & L). rewrite E. cbn [obind]. rewrite M1 in V. destruct b; [|exists r; rewrite N.mul_1_r; split; [reflexivity|]; split; [exact Pr|]; split; assumption].
  destruct (mp_mul_ok r m (proj1 Pr) (proj1 Pm)) as (W2 & N2 & M2 & _). destruct (reduce_ok (mp_mul (Some r) m) n (conj W2 N2) Pn Hn) as (r2 & E2 & P2 & V2 & L2). exists r2. split; [exact E2|]. split; [exact P2|]. split; [|exact L2].
  rewrite V2, M2, N.mul_mod, V, <- N.mul_mod by exact Hn. reflexivity.
Qed.
Lemma me_mod_n_ok : forall m e n, pos m -> well_formed e -> pos n -> magnitude n <> 0 ->
  exists r, me_mod_n m e n = Done r /\ pos r /\ magnitude r mod magnitude n = magnitude m ^ magnitude e mod magnitude n /\ (magnitude n < B -> trimmed_digits n -> magnitude r < magnitude n).
Proof.
  intros m e n Pm We Pn Hn. rewrite <- (bitmap_ok e We). unfold me_mod_n.
  assert (forall l A x, pos A -> magnitude A mod magnitude n = magnitude m ^ x mod magnitude n ->
    exists r, fold_left (me_step m n) l (Done A) = Done r /\ pos r /\ magnitude r mod magnitude n = magnitude m ^ horner l x mod magnitude n /\ (l <> [] -> magnitude n < B -> trimmed_digits n -> magnitude r < magnitude n)) as H.
  { induction l as [|b l IH]; intros A x PA MA; cbn [fold_left]; [exists A; split; [reflexivity|]; split; [exact PA|]; split; [exact MA|congruence]|].
    destruct (me_step_ok m n A b Pm Pn Hn PA) as (r & E & Pr & V & L). rewrite E. destruct (IH r (2 * x + (if b then 1 else 0)) Pr) as (r2 & E2 & P2 & V2 & L2).
    { rewrite V, pow_dbl. rewrite N.mul_mod, (N.mul_mod (magnitude A)), MA, <- (N.mul_mod (magnitude m ^ x)), <- N.mul_mod by exact Hn. reflexivity. }
    exists r2. split; [exact E2|]. split; [exact P2|]. split; [exact V2|]. intros _. destruct l; [cbn [fold_left] in E2; injection E2 as <-; exact L|apply L2; discriminate]. }
  destruct (H (bitmap e) (num 1) 0) as (r & E & P & V & L); [split; [apply wf_num; pose proof B_gt; lia|reflexivity]|rewrite mag_num, N.pow_0_r; reflexivity|].
  exists r. split; [exact E|]. split; [exact P|]. split; [exact V|]. apply L. pose proof (bitmap_len e We). destruct (bitmap e); [cbn in *; lia|discriminate].
Qed.
Lemma me_mod_zero : forall m e n, well_formed e -> pos n -> magnitude n = 0 -> me_mod_n m e n = UB.
Proof.
  intros m e n We Pn Hn. unfold me_mod_n. pose proof (bitmap_len e We) as L. destruct (bitmap e) as [|b l]; [cbn in L; lia|]. cbn [fold_left me_step obind]. rewrite reduce_zero by assumption. cbn [obind].
  clear. induction l as [|b l IH]; [reflexivity|]. cbn [fold_left me_step obind]. exact IH.
Qed.
Lemma div_2p_ok : forall x p, pos x -> exists q r, div_2p x p = Done (q, r) /\ pos q /\ pos r /\ magnitude q = magnitude x / 2 ^ N.of_nat p /\ magnitude r = magnitude x mod 2 ^ N.of_nat p.
Proof.
  intros x p Px. unfold div_2p. rewrite !(assign_none x) by apply (proj1 Px). destruct (mp_rsh_ok x p (proj1 Px)) as (W1 & N1 & M1 & _). set (q := mp_rsh x p) in *.
  assert (well_formed (mkMp false (1 :: repeat 0 7))) as W0 by (apply wf2; split; [discriminate|]; pose proof B_gt; repeat constructor; lia).
  destruct (mp_lsh_ok _ p W0) as (W2 & N2 & M2 & _). assert (magnitude (mkMp false (1 :: repeat 0 7)) = 1) as M0 by (rewrite mag; change (1 :: repeat 0 7) with ([1] ++ repeat 0 7); cbn [data]; rewrite dv_pad; cbn [digits_val]; lia).
  rewrite M0, N.mul_1_r in M2. destruct (mp_mul_ok _ q W2 W1) as (W3 & N3 & M3 & _). set (t := mp_mul _ q) in *. rewrite M2, M1 in M3.
  assert (2 ^ N.of_nat p <> 0) as P0 by (apply N.pow_nonzero; discriminate). pose proof (N.div_mod' (magnitude x) (2 ^ N.of_nat p)) as D. set (qq := magnitude x / 2 ^ N.of_nat p) in *. set (rr := magnitude x mod 2 ^ N.of_nat p) in *.
  assert (exists tr, mp_sub (Some x) t = Done tr /\ pos tr /\ magnitude tr = rr) as (tr & Et & Pt & Mt).
  { destruct (N.eq_dec (magnitude t) 0) as [Z|Z]; [exists x; split; [apply mp_sub_zero_r, Z|]; split; [exact Px|lia]|].
    destruct (mp_sub_ok x t (proj1 Px) W3) as (r & E & Wr & Nr & Mr & _); [lia|exact Z|]. replace (magnitude x <? magnitude t) with false in * by (symmetry; apply N.ltb_ge; lia). exists r. split; [exact E|]. split; [split; assumption|lia]. }
  rewrite Et. cbn [obind]. destruct (trimmed_ok (data tr) (proj2 (wf1 _ (proj1 Pt)))) as (T1 & T2 & T3 & _). rewrite <- mag in T3. eexists q, _. split; [reflexivity|]. split; [split; assumption|].
  destruct (strip (data tr)) eqn:Es.
  - apply strip_nil in Es. rewrite <- mag in Es. split; [split; [apply wf2; unfold new_mp_digits, new_mp; cbn [data]; split; [discriminate|apply wd_zeros]|reflexivity]|]. split; [exact M1|]. rewrite mag. unfold new_mp_digits, new_mp. cbn [data]. rewrite dv_zeros. lia.
  - split; [split; assumption|]. split; [exact M1|]. lia.
Qed.
(* the remainder of a signed value *)
Lemma mp_mod_ok : forall x n, well_formed x -> pos n -> magnitude n <> 0 -> exists r, mp_mod x n = Done (Some r) /\ pos r /\ (Z.of_N (magnitude r) mod Z.of_N (magnitude n) = value x mod Z.of_N (magnitude n))%Z /\
  (magnitude n < B -> trimmed_digits n -> magnitude r < magnitude n).
Proof.
  intros x n Wx Pn Hn. unfold mp_mod. rewrite !assign_none by (apply Wx || apply (proj1 Pn)).
  assert (forall A, pos A -> exists r, obind (mp_div A n) (fun qr => Done (match qr with Some (_, r) => Some r | None => None end)) = Done (Some r) /\ pos r /\ magnitude r mod magnitude n = magnitude A mod magnitude n /\
    (magnitude n < B -> trimmed_digits n -> magnitude r < magnitude n)) as H.
  { intros A PA. destruct (reduce_ok A n PA Pn Hn) as (r & E & R). unfold reduce in E. destruct (mp_div A n) as [[[q r']|]|]; cbn [obind] in *; try discriminate. injection E as ->. exists r. split; [reflexivity|exact R]. }
  assert (Z.of_N (magnitude n) <> 0%Z) as Hz by lia. unfold value. destruct (neg x) eqn:Nx.
  - assert (exists t, mp_sub (Some n) (num 1) = Done t /\ well_formed t /\ magnitude t = magnitude n - 1) as (t & Et & Wt & Mt).
    { destruct (mp_sub_ok n (num 1)) as (t & Et & Wt & _ & Mt & _); [apply Pn|apply wf_num; pose proof B_gt; lia|exact Hn|rewrite mag_num; discriminate|]. rewrite mag_num in Mt. exists t. split; [exact Et|]. split; [exact Wt|]. rewrite Mt. destruct (N.ltb_spec (magnitude n) 1); lia. }
    rewrite Et. cbn [obind]. destruct (mp_mul_ok (set_neg x false) t Wx Wt) as (W1 & N1 & M1 & _). destruct (H _ (conj W1 N1)) as (r & E & Pr & V & L). exists r. split; [exact E|]. split; [exact Pr|]. split; [|exact L].
    rewrite M1, mag_set_neg, Mt in V. rewrite <- N2Z.inj_mod, V, N2Z.inj_mod, N2Z.inj_mul, N2Z.inj_sub by lia. change (Z.of_N 1) with 1%Z.
    replace (Z.of_N (magnitude x) * (Z.of_N (magnitude n) - 1))%Z with (- Z.of_N (magnitude x) + Z.of_N (magnitude x) * Z.of_N (magnitude n))%Z by ring. apply Z.mod_add. exact Hz.
  - destruct (H x (conj Wx Nx)) as (r & E & Pr & V & L). exists r. split; [exact E|]. split; [exact Pr|]. split; [|exact L]. rewrite <- !N2Z.inj_mod, V. reflexivity.
Qed.

(* ---- hexadecimal *)
Lemma xnb_ok : forall c, hex_char c -> xnb c = hex_value c /\ hex_value c < 16.
Proof.
  intros c H. unfold xnb, hex_value. destruct H as [H|[H|H]].
  - replace (48 <=? c) with true by (symmetry; apply N.leb_le; lia). replace (c <=? 57) with true by (symmetry; apply N.leb_le; lia). cbn [andb]. lia.
  - replace (c <=? 57) with false by (symmetry; apply N.leb_gt; lia). rewrite andb_false_r. replace (97 <=? c) with false by (symmetry; apply N.leb_gt; lia). cbn [andb]. replace (c <=? 70) with true by (symmetry; apply N.leb_le; lia).
    replace (c + 256 - 55) with (c - 55 + 1 * 256) by lia. rewrite N.mod_add, N.mod_small by lia. lia.
  - replace (c <=? 57) with false by (symmetry; apply N.leb_gt; lia). rewrite andb_false_r. replace (97 <=? c) with true by (symmetry; apply N.leb_le; lia). replace (c <=? 122) with true by (symmetry; apply N.leb_le; lia). cbn [andb].
    replace (c <=? 70) with false by (symmetry; apply N.leb_gt; lia). replace (c - 32 + 256 - 55) with (c - 87 + 1 * 256) by lia. rewrite N.mod_add, N.mod_small by lia. lia.
Qed.
Lemma hex_acc : forall l a, fold_left (fun a c => a * 16 + hex_value c) l a = a * 16 ^ N.of_nat (length l) + hex_number l.
Proof.
  unfold hex_number. induction l as [|c l IH]; intro a; [cbn [fold_left length]; change (16 ^ N.of_nat 0) with 1; lia|]. cbn [fold_left length]. rewrite IH, (IH (0 * 16 + hex_value c)). rewrite Nat2N.inj_succ, N.pow_succ_r'. lia.
Qed.
Lemma hex_number_app : forall a b, hex_number (a ++ b) = hex_number a * 16 ^ N.of_nat (length b) + hex_number b.
Proof. intros. unfold hex_number at 1. rewrite fold_left_app. apply hex_acc. Qed.
Lemma hex_number_cons : forall c l, hex_number (c :: l) = hex_value c * 16 ^ N.of_nat (length l) + hex_number l.
Proof. intros. change (c :: l) with ([c] ++ l). rewrite hex_number_app. reflexivity. Qed.
Lemma hex_number_zeros : forall n, hex_number (repeat 48 n) = 0.
Proof. induction n as [|n IH]; [reflexivity|]. cbn [repeat]. rewrite hex_number_cons, IH. change (hex_value 48) with 0. lia. Qed.
Lemma hex_number_lt : forall l, Forall hex_char l -> hex_number l < 16 ^ N.of_nat (length l).
Proof.
  induction l as [|c l IH]; intro H; [reflexivity|]. apply Forall_cons_iff in H. destruct H as [Hc H]. rewrite hex_number_cons. cbn [length]. rewrite Nat2N.inj_succ, N.pow_succ_r'. specialize (IH H). destruct (xnb_ok c Hc) as [_ U]. nia.
Qed.
Lemma hex_pair : forall acc a b, acc * 256 < 2 ^ 64 -> a < 16 -> b < 16 -> N.lor (shlw 64 (shlw 64 acc 4) 4) (N.lor (shlw 8 a 4) b) = acc * 256 + (16 * a + b).
Proof.
  intros acc a b H Ha Hb. assert (N.lor (shlw 8 a 4) b = 16 * a + b) as ->.
  { unfold shlw. rewrite N.mod_small by (rewrite N.shiftl_mul_pow2; change (2 ^ 4) with 16; change (2 ^ 8) with 256; lia). rewrite lor_add by exact Hb. change (2 ^ 4) with 16. lia. }
  unfold shlw. rewrite (N.mod_small (N.shiftl acc 4)) by (rewrite N.shiftl_mul_pow2; change (2 ^ 4) with 16; lia). rewrite N.shiftl_shiftl. change (4 + 4) with 8.
  rewrite N.mod_small by (rewrite N.shiftl_mul_pow2; change (2 ^ 8) with 256; lia). rewrite lor_add by (change (2 ^ 8) with 256; lia). reflexivity.
Qed.
Lemma hex_digit_ok : forall n l acc, length l = (2 * n)%nat -> Forall hex_char l -> (acc + 1) * 16 ^ N.of_nat (2 * n) <= 2 ^ 64 -> hex_digit l acc = acc * 16 ^ N.of_nat (2 * n) + hex_number l.
Proof.
  induction n as [|n IH]; intros l acc L H U; [destruct l; [|discriminate]; change (16 ^ N.of_nat (2 * 0)) with 1; unfold hex_number; cbn [hex_digit fold_left]; lia|].
  destruct l as [|a [|b l]]; [discriminate|cbn [length] in L; lia|]. apply Forall_cons_iff in H. destruct H as [Ha H]. apply Forall_cons_iff in H. destruct H as [Hb H]. cbn [hex_digit length] in *.
  destruct (xnb_ok a Ha) as [-> Ua]. destruct (xnb_ok b Hb) as [-> Ub]. assert (16 ^ N.of_nat (2 * S n) = 256 * 16 ^ N.of_nat (2 * n)) as E.
  { replace (2 * S n)%nat with (2 + 2 * n)%nat by lia. rewrite Nat2N.inj_add, N.pow_add_r. reflexivity. } rewrite E in *. assert (0 < 16 ^ N.of_nat (2 * n)) as P0 by (apply N.neq_0_lt_0, N.pow_nonzero; discriminate).
  assert (length l = 2 * n)%nat as L' by lia. rewrite !hex_number_cons. cbn [length]. rewrite Nat2N.inj_succ, N.pow_succ_r'. rewrite L'. set (p := 16 ^ N.of_nat (2 * n)) in *.
  rewrite hex_pair by nia. rewrite (IH l) by (try exact L'; try exact H; nia). ring.
Qed.
Lemma hex_digits_val : forall L, (forall l, In l L -> length l = 16%nat /\ Forall hex_char l) ->
  dv (rev (map (fun l => hex_digit l 0) L)) = hex_number (concat L) /\ wd (rev (map (fun l => hex_digit l 0) L)).
Proof.
  induction L as [|l L IH]; intro H; [split; [reflexivity|constructor]|]. destruct (H l (or_introl eq_refl)) as [Ll Hl]. destruct IH as [V W]; [intros x Hx; apply H; right; exact Hx|].
  cbn [map rev concat]. assert (hex_digit l 0 = hex_number l) as E. { rewrite (hex_digit_ok 8 l 0 Ll Hl); [lia|]. apply N.leb_le. reflexivity. }
  pose proof (hex_number_lt l Hl) as U. rewrite Ll in U. split.
  - rewrite dv_app, V, rev_length, map_length, hex_number_app. cbn [digits_val]. rewrite E.
    assert (16 ^ N.of_nat (length (concat L)) = B ^ N.of_nat (length L)) as ->; [|lia]. clear - H. induction L as [|x L IH]; [reflexivity|]. cbn [concat length]. rewrite app_length. destruct (H x (or_intror (or_introl eq_refl))) as [-> _].
    rewrite powB_S, <- IH; [|intros y [->|Hy]; apply H; [left; reflexivity|right; right; exact Hy]]. rewrite Nat2N.inj_add, N.pow_add_r. rewrite B_eq. reflexivity.
  - apply wd_app; [exact W|]. repeat constructor. rewrite E, B_eq. exact U.
Qed.
Lemma chunks_mult : forall n k l, (0 < n)%nat -> length l = (k * n)%nat -> concat (chunks n l) = l /\ length (chunks n l) = k /\ forall b, In b (chunks n l) -> length b = n /\ incl b l.
Proof.
  intros n k. induction k as [|k IH]; intros l Hn L; [destruct l; [|discriminate]; split; [reflexivity|]; split; [reflexivity|intros b []]|].
  assert (length (firstn n l) = n) as Lf by (apply firstn_length_le; lia). destruct (IH (skipn n l) Hn) as (E & Lc & I); [rewrite skipn_length; lia|].
  rewrite <- (firstn_skipn n l). rewrite HashProofs.chunks_app by assumption. cbn [concat length]. rewrite E. split; [reflexivity|]. split; [lia|].
  intros b [<-|Hb]; [split; [exact Lf|intros x Hx; apply in_or_app; left; exact Hx]|]. destruct (I b Hb) as [Lb Ib]. split; [exact Lb|]. intros x Hx. apply in_or_app. right. apply Ib, Hx.
Qed.
Lemma pad16 : forall e, exists k, ((16 - e mod 16) mod 16 + e = k * 16)%nat.
Proof.
  intro e. pose proof (Nat.div_mod e 16 ltac:(discriminate)) as D. pose proof (Nat.mod_upper_bound e 16 ltac:(discriminate)) as U. destruct (Nat.eq_dec (e mod 16) 0) as [Z|Z].
  - exists (e / 16)%nat. rewrite Z in *. change ((16 - 0) mod 16)%nat with O. lia.
  - exists (e / 16 + 1)%nat. rewrite (Nat.mod_small (16 - e mod 16)) by lia. lia.
Qed.
Lemma new_digits_pad : forall k, new_digits (4 * (k * 16)) = Nat.max 1 k.
Proof. intro k. replace (4 * (k * 16))%nat with (64 * k)%nat by lia. apply new_digits_64. Qed.
Lemma hex_mp_ok : forall sgn v, Forall hex_char v -> (sgn = true \/ v <> []) ->
  exists a, hex_value_as_mp ((if sgn then [45] else []) ++ v) = Some a /\ neg a = sgn /\ magnitude a = hex_number v /\ well_formed a /\ size a = Nat.max 1 ((length v + 15) / 16).
Proof.
  intros sgn v H N0. set (value := (if sgn then [45] else []) ++ v).
  assert (exists c r, value = c :: r /\ (c =? 45) = sgn /\ (if sgn then r else value) = v) as (c & r & E & Es & Ev).
  { unfold value. destruct sgn; [exists 45, v; split; [reflexivity|split; reflexivity]|]. destruct v as [|c r]; [destruct N0; congruence|]. exists c, r. split; [reflexivity|]. split; [|reflexivity].
    apply Forall_cons_iff in H. destruct H as [H _]. apply N.eqb_neq. unfold hex_char in H. lia. }
  clearbody value. rewrite E in Ev |- *. unfold hex_value_as_mp. cbv zeta. rewrite Es, Ev. clear E Es Ev value c r. destruct (pad16 (length v)) as [k K].
  set (padded := repeat 48 _ ++ v). assert (length padded = k * 16)%nat as Lp by (unfold padded; rewrite app_length, repeat_length; exact K).
  assert (Forall hex_char padded) as Hp. { apply Forall_app. split; [|exact H]. apply Forall_forall. intros x Hx. apply repeat_spec in Hx. subst x. left. lia. }
  destruct (chunks_mult 16 k padded ltac:(lia) Lp) as (C1 & C2 & C3). destruct (hex_digits_val (chunks 16 padded)) as [V W].
  { intros l Hl. destruct (C3 l Hl) as [C4 C5]. split; [exact C4|]. apply Forall_forall. intros x Hx. rewrite Forall_forall in Hp. apply Hp, C5, Hx. }
  rewrite C1 in V. rewrite Lp, new_digits_pad, map_length, C2. eexists. split; [reflexivity|]. split; [reflexivity|]. rewrite mag. cbn [data]. rewrite dv_pad, V. split; [unfold padded; rewrite hex_number_app, hex_number_zeros; lia|]. split.
  - apply wf2. cbn [data]. split; [|apply wd_app; [exact W|apply wd_zeros]]. intro E. apply (f_equal (@length N)) in E. rewrite app_length, rev_length, map_length, C2, repeat_length in E. cbn [length] in E. lia.
  - unfold size. cbn [data]. rewrite app_length, rev_length, map_length, C2, repeat_length.
    assert ((length v + 15) / 16 = k)%nat as ->; [|lia]. clear - K. pose proof (Nat.mod_upper_bound (16 - length v mod 16) 16 ltac:(discriminate)) as U. symmetry. apply Nat.div_unique with (15 - (16 - length v mod 16) mod 16)%nat; lia.
Qed.
(* values written and read back *)
Lemma nbx_ok : forall x, x < 16 -> hex_char (nbx x) /\ hex_value (nbx x) = x.
Proof.
  intros x H. assert (forallb (fun x => (((48 <=? nbx x) && (nbx x <=? 57)) || ((65 <=? nbx x) && (nbx x <=? 70))) && (hex_value (nbx x) =? x))%bool (map N.of_nat (seq 0 16)) = true) as S by reflexivity.
  rewrite forallb_forall in S. specialize (S x). rewrite andb_true_iff, orb_true_iff, !andb_true_iff, !N.leb_le, N.eqb_eq in S. destruct S as [S1 S2]; [|split; [unfold hex_char; lia|exact S2]].
  apply in_map_iff. exists (N.to_nat x). split; [lia|]. apply in_seq. lia.
Qed.
Definition nibbles (n : nat) (d : N) : list N := map (fun i => N.land (N.shiftr d (4 * N.of_nat i)) 0xF) (rev (seq 0 n)).
Lemma nibbles_S : forall n d, nibbles (S n) d = N.land (N.shiftr d (4 * N.of_nat n)) 0xF :: nibbles n d.
Proof. intros. unfold nibbles. rewrite seq_S, rev_app_distr. reflexivity. Qed.
Lemma nibbles_val : forall n d, hex_number (map nbx (nibbles n d)) = d mod 16 ^ N.of_nat n /\ Forall hex_char (map nbx (nibbles n d)) /\ length (map nbx (nibbles n d)) = n.
Proof.
  induction n as [|n IH]; intro d; [split; [change (16 ^ N.of_nat 0) with 1; rewrite N.mod_1_r; reflexivity|split; constructor]|]. destruct (IH d) as (V & F & L). rewrite nibbles_S. cbn [map length].
  assert (N.land (N.shiftr d (4 * N.of_nat n)) 15 = d / 16 ^ N.of_nat n mod 16) as ->. { change 15 with (N.ones 4). rewrite N.land_ones, N.shiftr_div_pow2, N.pow_mul_r. reflexivity. }
  assert (d / 16 ^ N.of_nat n mod 16 < 16) as U by (apply N.mod_lt; discriminate). destruct (nbx_ok _ U) as [H1 H2]. split; [|split; [constructor; assumption|lia]].
  rewrite hex_number_cons, H2, L, V. rewrite Nat2N.inj_succ, N.pow_succ_r', (N.mul_comm 16), N.mod_mul_r by (try apply N.pow_nonzero; discriminate). ring.
Qed.
Lemma digit_hex_nibbles : forall d, digit_hex d = map nbx (nibbles 16 d). Proof. reflexivity. Qed.
Lemma digit_hex_ok : forall d, d < B -> hex_digit (digit_hex d) 0 = d /\ length (digit_hex d) = 16%nat /\ Forall hex_char (digit_hex d).
Proof.
  intros d H. destruct (nibbles_val 16 d) as (V & F & L). rewrite <- digit_hex_nibbles in *. split; [|split; assumption]. rewrite (hex_digit_ok 8 _ 0 L F) by (apply N.leb_le; reflexivity). rewrite V, N.mul_0_l, N.add_0_l. apply N.mod_small. rewrite B_eq in H. exact H.
Qed.
Lemma hex_round_trip : forall a, well_formed a -> hex_value_as_mp (fst (value_as_hex a)) = Some a.
Proof.
  intros [sgn l] W. apply wf1 in W. cbn [data] in W. destruct W as [N0 W]. unfold value_as_hex. cbn [neg data fst]. set (v := concat (map digit_hex (rev l))).
  assert (length v = length l * 16)%nat as Lv.
  { unfold v. rewrite <- (rev_length l). clear. induction (rev l) as [|d r IH]; [reflexivity|]. cbn [map concat length]. rewrite app_length, IH. cbn [digit_hex length map]. lia. }
  assert (exists c r, (if sgn then [45] else []) ++ v = c :: r /\ (c =? 45) = sgn /\ (if sgn then r else (if sgn then [45] else []) ++ v) = v) as (c & r & E & Es & Ev).
  { destruct sgn; [exists 45, v; split; [reflexivity|split; reflexivity]|]. cbn [app]. destruct v as [|c r] eqn:EV; [cbn [length] in Lv; destruct l; [congruence|cbn [length] in Lv; lia]|]. exists c, r. split; [reflexivity|]. split; [|reflexivity].
    apply N.eqb_neq. intros ->. unfold v in EV. destruct (rev l) as [|d m] eqn:R; [discriminate|]. cbn [map concat] in EV. assert (hex_char 45) as HC; [|unfold hex_char in HC; lia].
    assert (d < B) as Hd. { apply (proj1 (Forall_forall (fun d => d < B) l) W). apply in_rev. rewrite R. left. reflexivity. } destruct (digit_hex_ok d Hd) as (_ & Ld & Fd). destruct (digit_hex d) as [|x y]; [discriminate|]. injection EV as -> _. apply Forall_cons_iff in Fd. apply Fd. }
  rewrite E. unfold hex_value_as_mp. rewrite Es. rewrite E in Ev. rewrite Ev. cbv zeta. rewrite Lv. rewrite Nat.mod_mul by discriminate. change ((16 - 0) mod 16)%nat with O. cbn [repeat app]. rewrite Lv, new_digits_pad.
  unfold v. rewrite <- (app_nil_r (concat (map digit_hex (rev l)))). rewrite HashProofs.chunks_concat; [|lia|intros b Hb; apply in_map_iff in Hb; destruct Hb as (d & <- & _); reflexivity].
  change (chunks 16 []) with (@nil (list N)). rewrite app_nil_r. rewrite map_map, map_rev, rev_involutive, rev_length, map_length.
  assert (map (fun x => hex_digit (digit_hex x) 0) l = l) as ->. { clear - W. induction l as [|d l IH]; [reflexivity|]. apply Forall_cons_iff in W. destruct W as [Hd W]. cbn [map]. f_equal; [apply digit_hex_ok, Hd|apply IH, W]. }
  replace (Nat.max 1 (length l) - length l)%nat with O by (destruct l; [congruence|cbn [length]; lia]). cbn [repeat]. rewrite app_nil_r. reflexivity.
Qed.
(* byte buffers *)
Lemma byte_hex : forall l, bytes l -> let h := concat (map (fun b => [nbx (N.shiftr b 4); nbx (N.land b 0xF)]) l) in hex_number h = be_val l /\ Forall hex_char h /\ length h = (2 * length l)%nat.
Proof.
  induction l as [|b l IH] using rev_ind; intro H; cbv zeta in *; [split; [reflexivity|split; constructor]|]. apply Forall_app in H. destruct H as [H Hb]. apply Forall_cons_iff in Hb. destruct Hb as [Hb _]. destruct (IH H) as (V & F & L).
  rewrite map_app, concat_app. cbn [map concat app]. assert (b < 256) as U by exact Hb. assert (N.shiftr b 4 = b / 16) as -> by (rewrite N.shiftr_div_pow2; reflexivity). assert (N.land b 15 = b mod 16) as -> by (change 15 with (N.ones 4); apply N.land_ones).
  destruct (nbx_ok (b / 16)) as [A1 A2]; [apply N.div_lt_upper_bound; lia|]. destruct (nbx_ok (b mod 16)) as [A3 A4]; [apply N.mod_lt; discriminate|]. split; [|split].
  - rewrite hex_number_app, !hex_number_cons, V, A2, A4, be_val_app. cbn [length]. change (16 ^ N.of_nat 2) with 256. change (16 ^ N.of_nat 1) with 16. change (16 ^ N.of_nat 0) with 1. unfold hex_number. cbn [fold_left]. pose proof (N.div_mod' b 16). lia.
  - apply Forall_app. split; [exact F|]. constructor; [exact A1|]. constructor; [exact A3|constructor].
  - rewrite !app_length, L. cbn [length]. lia.
Qed.
Lemma raw_ok : forall l, bytes l -> l <> [] -> exists a, raw_buffer_as_mp l = Some a /\ neg a = false /\ magnitude a = be_val l /\ well_formed a /\ size a = ((length l + 7) / 8)%nat.
Proof.
  intros l H N0. destruct (byte_hex l H) as (V & F & L). destruct l as [|b l'] eqn:El; [congruence|]. rewrite <- El in *. assert (raw_buffer_as_mp l = hex_value_as_mp (concat (map (fun b => [nbx (N.shiftr b 4); nbx (N.land b 0xF)]) l))) as -> by (rewrite El; reflexivity).
  destruct (hex_mp_ok false _ F) as (a & E & Na & Ma & Wa & Sa). { right. intro E. rewrite E in L. rewrite El in L. discriminate. }
  cbn [app] in E. exists a. split; [exact E|]. split; [exact Na|]. split; [rewrite Ma; exact V|]. split; [exact Wa|]. rewrite Sa, L.
  assert (2 * length l + 15 = 1 + (length l + 7) * 2)%nat as -> by lia. change 16%nat with (2 * 8)%nat. rewrite <- Nat.div_div by discriminate. rewrite Nat.div_add by discriminate. change (1 / 2)%nat with O. cbn [Nat.add]. rewrite Nat.max_r; [reflexivity|]. rewrite El. cbn [length]. apply Nat.div_le_lower_bound; lia.
Qed.
Lemma be_val_app2 : forall a b, be_val (a ++ b) = be_val a * 256 ^ N.of_nat (length b) + be_val b.
Proof.
  intros a b. revert a. induction b as [|x b IH] using rev_ind; intro a; [rewrite app_nil_r; change (256 ^ N.of_nat (length (@nil N))) with 1; unfold be_val at 3; cbn [fold_left]; lia|].
  rewrite app_assoc, !be_val_app, IH, app_length. cbn [length]. rewrite Nat.add_1_r, Nat2N.inj_succ, N.pow_succ_r'. ring.
Qed.
Lemma task_out_ok : forall a, well_formed a -> be_val (as_task_out a) = magnitude a /\ length (as_task_out a) = (8 * size a)%nat /\ bytes (as_task_out a).
Proof.
  intros a W. apply wf1 in W. destruct W as [_ W]. rewrite mag. unfold as_task_out, size. induction (data a) as [|d l IH]; [split; [reflexivity|split; constructor]|].
  apply Forall_cons_iff in W. destruct W as [Hd W]. destruct (IH W) as (V & L & F). cbn [rev digits_val length]. rewrite map_app, concat_app. cbn [map concat]. rewrite app_nil_r. split; [|split].
  - rewrite be_val_app2, be_bytes_length, V, be_val_bytes by (rewrite B_eq in Hd; exact Hd). change (256 ^ N.of_nat 8) with (2 ^ 64). rewrite <- B_eq. lia.
  - rewrite app_length, L, be_bytes_length. lia.
  - apply Forall_app. split; [exact F|apply be_bytes_bytes].
Qed.
Lemma raw_round_trip : forall l a, bytes l -> raw_buffer_as_mp l = Some a -> as_task_out a = repeat 0 ((8 - length l mod 8) mod 8) ++ l.
Proof.
  intros l a H E. destruct l as [|b l'] eqn:El; [discriminate|]. rewrite <- El in *. destruct (raw_ok l H) as (a' & E' & Na & Ma & Wa & Sa); [rewrite El; discriminate|]. rewrite E in E'. injection E' as <-.
  destruct (task_out_ok a Wa) as (V & L & F). set (z := repeat 0 _).
  assert (length (z ++ l) = 8 * size a)%nat as Lz.
  { unfold z. rewrite app_length, repeat_length, Sa. clear. pose proof (Nat.div_mod (length l) 8 ltac:(discriminate)) as D. pose proof (Nat.mod_upper_bound (length l) 8 ltac:(discriminate)) as U. destruct (Nat.eq_dec (length l mod 8) 0) as [Z|Z].
    - rewrite Z in *. change ((8 - 0) mod 8)%nat with O. replace (length l + 7)%nat with (7 + length l / 8 * 8)%nat by lia. rewrite Nat.div_add by discriminate. change (7 / 8)%nat with O. lia.
    - rewrite (Nat.mod_small (8 - length l mod 8)) by lia. assert ((length l + 7) / 8 = length l / 8 + 1)%nat as ->; [|lia]. symmetry. apply Nat.div_unique with (length l mod 8 - 1)%nat; lia. }
  assert (bytes (z ++ l)) as Fz. { apply Forall_app. split; [|exact H]. unfold z. apply Forall_forall. intros x Hx. apply repeat_spec in Hx. subst x. reflexivity. }
  rewrite <- (be_bytes_val _ F), <- (be_bytes_val _ Fz). rewrite L, Lz, V, be_val_app2, Ma. replace (be_val z) with 0; [f_equal; lia|]. unfold z. clear. induction ((8 - length l mod 8) mod 8)%nat as [|n IH]; [reflexivity|]. rewrite <- repeat_cons || idtac.
  cbn [repeat]. change (0 :: repeat 0 n) with ([0] ++ repeat 0 n). rewrite be_val_app2, <- IH. reflexivity.
Qed.
