From Verif Require Import Words MpModel MpSpec MpProofs.
From Coq Require Import PeanoNat.
Open Scope N_scope.
Notation dv := digits_val.

(* ---- signed arithmetic *)
Lemma wf_num : forall d, d < B -> well_formed (num d).
Proof. intros d H. apply wf2. split; [discriminate|]. repeat constructor. exact H. Qed.
Lemma mag_num : forall d, magnitude (num d) = d.
Proof. intro d. rewrite mag. cbn [num data digits_val]. lia. Qed.
Lemma wf_set_neg : forall a s, well_formed a -> well_formed (set_neg a s). Proof. intros a s H. exact H. Qed.
Lemma mag_set_neg : forall a s, magnitude (set_neg a s) = magnitude a. Proof. reflexivity. Qed.
Lemma eq_zero : forall a, normal a -> mp_eq a (num 0) = (magnitude a =? 0).
Proof.
  intros a [W Z]. rewrite mp_eq_ok by (try apply wf_num, B_pos; exact W). rewrite mag_num. cbn [neg num]. destruct (N.eqb_spec (magnitude a) 0) as [E|E]; [|apply andb_false_r].
  destruct (neg a); [specialize (Z eq_refl); contradiction|reflexivity].
Qed.
Lemma normal_num : forall d, d < B -> normal (num d). Proof. intros d H. split; [apply wf_num, H|discriminate]. Qed.
Lemma normal_pos : forall a, well_formed a -> neg a = false -> normal a. Proof. intros a W E. split; [exact W|congruence]. Qed.
Lemma value_zero : forall a, magnitude a = 0 -> value a = 0%Z. Proof. intros a H. unfold value. rewrite H. destruct (neg a); reflexivity. Qed.
Ltac mags := repeat rewrite ?mag_set_neg, ?mag_num in *.
Lemma add_s_ok : forall d s, normal d -> normal s -> exists r, add_s d s = Done r /\ normal r /\ value r = (value d + value s)%Z.
Proof.
  intros d s Nd Ns. unfold add_s. rewrite !assign_none by (apply Nd || apply Ns). rewrite !eq_zero by assumption.
  destruct (N.eqb_spec (magnitude s) 0) as [Zs|Zs]; destruct (N.eqb_spec (magnitude d) 0) as [Zd|Zd]; cbn [andb].
  - exists (num 0). split; [reflexivity|]. split; [apply normal_num, B_pos|]. rewrite (value_zero d), (value_zero s) by assumption. reflexivity.
  - exists d. rewrite (value_zero s) by assumption. split; [reflexivity|]. split; [exact Nd|lia].
  - exists s. rewrite (value_zero d) by assumption. split; [reflexivity|]. split; [exact Ns|lia].
  - destruct Nd as [Wd _], Ns as [Ws _].
    assert (well_formed (set_neg d false)) as Wd' by exact Wd. assert (well_formed (set_neg s false)) as Ws' by exact Ws.
    destruct (xorb (neg d) (neg s)) eqn:X.
    + rewrite mp_gt_ok by (assumption || reflexivity). mags. destruct (N.ltb_spec (magnitude s) (magnitude d)) as [L|L].
      * rewrite mp_gt_ok by (assumption || reflexivity). mags. apply N.ltb_lt in L as L'. rewrite L'.
        destruct (mp_sub_ok (set_neg d false) (set_neg s false) Wd' Ws' Zd Zs) as (r & E & Wr & Nr & Mr & _). mags. rewrite E. cbn [obind].
        replace (magnitude d <? magnitude s) with false in * by (symmetry; apply N.ltb_ge; lia).
        eexists. split; [reflexivity|]. split; [split; [exact Wr|mags; lia]|]. unfold value. cbn [set_neg neg]. mags. rewrite Mr, andb_true_r.
        destruct (neg d), (neg s); cbn in X; try discriminate; lia.
      * rewrite mp_gt_ok by (assumption || reflexivity). mags.
        destruct (mp_sub_ok (set_neg s false) (set_neg d false) Ws' Wd' Zs Zd) as (r & E & Wr & Nr & Mr & _). mags. rewrite E. cbn [obind].
        replace (magnitude s <? magnitude d) with false in * by (symmetry; apply N.ltb_ge; lia).
        eexists. split; [reflexivity|]. split; [split; [exact Wr|mags; cbn [set_neg neg]; rewrite andb_true_iff, N.ltb_lt; lia]|]. unfold value. cbn [set_neg neg]. mags. rewrite Mr.
        destruct (N.ltb_spec (magnitude d) (magnitude s)); destruct (neg d), (neg s); cbn in X |- *; try discriminate; lia.
    + destruct (mp_add_ok (set_neg d false) (set_neg s false) Wd' Ws') as (r & E & Nr & Mr & Wr & _); [mags; lia|]. mags. rewrite E. cbn [obind].
      eexists. split; [reflexivity|]. split; [split; [exact Wr|mags; lia]|]. unfold value. cbn [set_neg neg]. mags. rewrite Mr. destruct (neg d), (neg s); cbn in X; try discriminate; lia.
Qed.
Lemma sub_s_ok : forall d s, normal d -> normal s -> exists r, sub_s d s = Done r /\ normal r /\ value r = (value d - value s)%Z.
Proof.
  intros d s Nd Ns. unfold sub_s. rewrite !assign_none by (apply Nd || apply Ns). rewrite !eq_zero by assumption.
  destruct (N.eqb_spec (magnitude s) 0) as [Zs|Zs]; destruct (N.eqb_spec (magnitude d) 0) as [Zd|Zd]; cbn [andb negb].
  - exists (num 0). split; [reflexivity|]. split; [apply normal_num, B_pos|]. rewrite (value_zero d), (value_zero s) by assumption. reflexivity.
  - exists d. rewrite (value_zero s) by assumption. split; [reflexivity|]. split; [exact Nd|lia].
  - eexists. split; [reflexivity|]. rewrite (value_zero d) by assumption. split; [split; [apply Ns|mags; lia]|]. unfold value. cbn [set_neg neg]. mags. destruct (neg s); cbn [negb]; lia.
  - destruct Nd as [Wd _], Ns as [Ws _].
    assert (well_formed (set_neg d false)) as Wd' by exact Wd. assert (well_formed (set_neg s false)) as Ws' by exact Ws.
    rewrite mp_eq_ok by assumption. cbn [set_neg neg Bool.eqb andb]. fold (set_neg d false). fold (set_neg s false). mags.
    destruct (Bool.eqb (neg d) (neg s) && (magnitude d =? magnitude s))%bool eqn:Q.
    { apply andb_true_iff in Q. destruct Q as [Q1 Q2]. apply Bool.eqb_prop in Q1. apply N.eqb_eq in Q2. exists (num 0). split; [reflexivity|]. split; [apply normal_num, B_pos|].
      unfold value. rewrite Q1, Q2. mags. destruct (neg s); cbn [num neg]; lia. }
    rewrite !mp_ge_ok by (assumption || reflexivity). mags. destruct (xorb (neg d) (neg s)) eqn:X.
    + destruct (mp_add_ok (set_neg d false) (set_neg s false) Wd' Ws') as (r & E & Nr & Mr & Wr & _); [mags; lia|]. mags. rewrite E. cbn [obind]. cbn [set_neg neg] in Nr.
      destruct (neg d) eqn:Dn, (neg s) eqn:Sn; cbn in X; try discriminate.
      * cbn [negb andb orb]. rewrite !andb_false_r, !andb_true_r, !orb_false_l. assert ((magnitude s <=? magnitude d) || (magnitude d <=? magnitude s) = true)%bool as ->.
        { apply orb_true_iff. rewrite !N.leb_le. lia. } rewrite Nr. cbn [set_neg neg negb andb].
        eexists. split; [reflexivity|]. split; [split; [exact Wr|mags; lia]|]. unfold value. rewrite Dn, Sn. cbn [neg set_neg]. fold (set_neg r true). mags. rewrite Mr. lia.
      * cbn [negb andb orb]. rewrite !andb_false_r. cbn [orb andb]. eexists. split; [reflexivity|]. split; [apply normal_pos; assumption|]. unfold value. rewrite Nr, Mr, Dn, Sn. lia.
    + destruct (mp_sub_ok (set_neg d false) (set_neg s false) Wd' Ws') as (r & E & Wr & Nr & Mr & _); [mags; lia|mags; lia|]. mags. rewrite E. cbn [obind].
      assert (neg d = neg s) as DS by (destruct (neg d), (neg s); cbn in X; congruence).
      rewrite DS, Bool.eqb_reflx in Q. cbn [andb] in Q. apply N.eqb_neq in Q.
      destruct (neg s) eqn:Sn; rewrite DS; cbn [negb andb orb]; rewrite !andb_false_r, ?andb_true_r; cbn [orb andb].
      * assert ((magnitude s <=? magnitude d) || (magnitude d <=? magnitude s) = true)%bool as ->. { apply orb_true_iff. rewrite !N.leb_le. lia. }
        destruct (N.ltb_spec (magnitude d) (magnitude s)) as [L|L]; rewrite Nr; cbn [negb].
        -- rewrite mp_ge_ok by (assumption || reflexivity). mags. rewrite Mr. replace (magnitude s - magnitude d <=? magnitude s) with true by (symmetry; apply N.leb_le; lia). cbn [set_neg neg negb andb].
           eexists. split; [reflexivity|]. split; [apply normal_pos; [exact Wr|reflexivity]|]. unfold value. rewrite DS, Sn. cbn [neg]. fold (set_neg r false). mags. rewrite Mr. cbn [set_neg neg]. lia.
        -- cbn [set_neg neg negb andb]. eexists. split; [reflexivity|]. split; [split; [exact Wr|fold (set_neg r true); mags; lia]|]. unfold value. rewrite DS, Sn. cbn [neg]. fold (set_neg r true). mags. rewrite Mr. cbn [set_neg neg]. lia.
      * eexists. split; [reflexivity|]. split; [split; [exact Wr|]|].
        -- rewrite Nr, Mr. destruct (N.ltb_spec (magnitude d) (magnitude s)); [lia|discriminate].
        -- unfold value. rewrite DS, Sn, Nr, Mr. destruct (N.ltb_spec (magnitude d) (magnitude s)); lia.
Qed.
Lemma mul_s_ok : forall d s, normal d -> normal s -> normal (mul_s d s) /\ value (mul_s d s) = (value d * value s)%Z.
Proof.
  intros d s Nd Ns. unfold mul_s. rewrite !eq_zero by assumption.
  destruct (N.eqb_spec (magnitude s) 0) as [Zs|Zs]; cbn [orb]; [|destruct (N.eqb_spec (magnitude d) 0) as [Zd|Zd]; cbn [orb]].
  - split; [apply normal_num, B_pos|]. rewrite (value_zero s) by assumption. rewrite Z.mul_0_r. reflexivity.
  - split; [apply normal_num, B_pos|]. rewrite (value_zero d) by assumption. rewrite Z.mul_0_l. reflexivity.
  - rewrite !assign_none by (apply Nd || apply Ns). destruct (mp_mul_ok (set_neg d false) (set_neg s false)) as (W & _ & M & _); [apply Nd|apply Ns|]. mags.
    split; [split; [exact W|mags; nia]|]. unfold value at 1. cbn [set_neg neg]. fold (set_neg (mp_mul (Some (set_neg d false)) (set_neg s false)) (xorb (neg d) (neg s))). mags. rewrite M.
    unfold value. destruct (neg d), (neg s); cbn [xorb]; lia.
Qed.

(* ---- division *)
Lemma nth_dv : forall l i, wd l -> nth i l 0 = dv l / B ^ N.of_nat i mod B.
Proof.
  induction l as [|d l IH]; intros i W; [destruct i; cbn [nth digits_val]; rewrite N.div_0_l by apply powB_nz; reflexivity|]. apply Forall_cons_iff in W. destruct W as [Hd W]. destruct i as [|i].
  - change (B ^ N.of_nat 0) with 1. rewrite N.div_1_r. cbn [nth digits_val]. rewrite N.mul_comm, N.mod_add by apply B_nz. symmetry. apply N.mod_small, Hd.
  - rewrite powB_S. cbn [nth digits_val]. rewrite <- N.div_div by (apply B_nz || apply powB_nz). destruct (divmodW B (d + B * dv l) (dv l) d Hd ltac:(lia)) as [-> _]. apply IH, W.
Qed.
Lemma sig_bounds : forall a, well_formed a -> magnitude a <> 0 -> (1 <= sig a <= size a)%nat /\ B ^ N.of_nat (sig a - 1) <= magnitude a < B ^ N.of_nat (sig a).
Proof. intros a W H. rewrite mag in *. apply wf1 in W. destruct (strip_bounds (data a) (proj2 W) H) as [L R]. pose proof (strip_len (data a)). unfold sig, size. split; [lia|exact R]. Qed.
Lemma sig_unique : forall a n, well_formed a -> magnitude a <> 0 -> B ^ N.of_nat n <= magnitude a < B ^ N.of_nat (S n) -> sig a = S n.
Proof.
  intros a n W H [L U]. destruct (sig_bounds a W H) as [[P _] [L' U']].
  assert (1 < B) as B1 by (rewrite B_eq; reflexivity).
  assert (N.of_nat (sig a - 1) < N.of_nat (S n)) by (apply (N.pow_lt_mono_r_iff B); [exact B1|lia]). assert (N.of_nat n < N.of_nat (sig a)) by (apply (N.pow_lt_mono_r_iff B); [exact B1|lia]). lia.
Qed.
Lemma top_digit : forall a, well_formed a -> magnitude a <> 0 -> nthd a (sig a - 1) = magnitude a / B ^ N.of_nat (sig a - 1).
Proof.
  intros a W H. destruct (sig_bounds a W H) as [[P _] [_ U]]. apply wf1 in W. unfold nthd. rewrite nth_dv by apply W. rewrite <- mag. apply N.mod_small. apply N.div_lt_upper_bound; [apply powB_nz|].
  rewrite N.mul_comm, <- powB_S. replace (S (sig a - 1)) with (sig a) by lia. exact U.
Qed.
Lemma halfB : forall P, B * P = 2 * (2 ^ 63 * P). Proof. intro P. rewrite B_eq. change (2 ^ 64) with (2 * 2 ^ 63). symmetry. apply N.mul_assoc. Qed.
Definition pos (a : mp) : Prop := well_formed a /\ neg a = false.
Lemma normalize_ok : forall fuel xn yn s n, pos xn -> pos yn -> sig yn = S n -> magnitude yn <> 0 -> B * B ^ N.of_nat n <= 2 * 2 ^ N.of_nat fuel * magnitude yn ->
  exists x' y' k, normalize fuel xn yn s = (x', y', s + k)%nat /\ pos x' /\ pos y' /\ magnitude x' = 2 ^ N.of_nat k * magnitude xn /\ magnitude y' = 2 ^ N.of_nat k * magnitude yn /\
    size x' = (size xn + k)%nat /\ size y' = (size yn + k)%nat /\ sig y' = S n /\ B * B ^ N.of_nat n <= 2 * magnitude y' /\ magnitude y' < B * B ^ N.of_nat n.
Proof.
  induction fuel as [|fuel IH]; intros xn yn s n Px Py Hs Hy HB; cbn [normalize].
  - exists xn, yn, O. rewrite !Nat.add_0_r. change (2 ^ N.of_nat 0) with 1 in *. rewrite !N.mul_1_l. destruct (sig_bounds yn (proj1 Py) Hy) as [_ [_ U]]. rewrite Hs, powB_S in U.
    split; [reflexivity|]. split; [exact Px|]. split; [exact Py|]. repeat (split; [reflexivity || exact Hs|]). split; [lia|exact U].
  - destruct (sig_bounds yn (proj1 Py) Hy) as [_ [Lo U]]. rewrite top_digit by (exact Hy || apply Py). rewrite Hs in *. replace (S n - 1)%nat with n in * by lia. rewrite powB_S in U.
    destruct (N.ltb_spec (magnitude yn / B ^ N.of_nat n) (2 ^ 63)) as [L|L].
    + destruct (mp_lsh_ok xn 1 (proj1 Px)) as (X1 & X2 & X3 & X4). destruct (mp_lsh_ok yn 1 (proj1 Py)) as (Y1 & Y2 & Y3 & Y4). change (2 ^ N.of_nat 1) with 2 in *. change ((1 + 63) / 64)%nat with 1%nat in *.
      assert (magnitude yn < 2 ^ 63 * B ^ N.of_nat n) as U2. { pose proof (N.mul_succ_div_gt (magnitude yn) (B ^ N.of_nat n) (powB_nz _)) as G. nia. }
      destruct (IH (mp_lsh xn 1) (mp_lsh yn 1) (S s) n) as (x' & y' & k & E & P1 & P2 & M1 & M2 & S1 & S2 & R).
      { split; [exact X1|rewrite X2; apply Px]. } { split; [exact Y1|rewrite Y2; apply Py]. }
      { apply sig_unique; [exact Y1|lia|]. rewrite Y3, powB_S, halfB. lia. }
      { lia. } { rewrite Y3. rewrite Nat2N.inj_succ, N.pow_succ_r' in HB. lia. }
      exists x', y', (S k). rewrite Nat2N.inj_succ, N.pow_succ_r'. rewrite M1, M2, X3, Y3 in *. split; [rewrite E; f_equal; lia|]. split; [exact P1|]. split; [exact P2|]. split; [lia|]. split; [lia|]. split; [lia|]. split; [lia|].
      exact R.
    + exists xn, yn, O. rewrite !Nat.add_0_r. change (2 ^ N.of_nat 0) with 1 in *. rewrite !N.mul_1_l.
      split; [reflexivity|]. split; [exact Px|]. split; [exact Py|]. repeat (split; [reflexivity || exact Hs|]). split; [|exact U].
      rewrite halfB. assert (2 ^ 63 * B ^ N.of_nat n <= magnitude yn); [|lia].
      apply N.le_trans with (magnitude yn / B ^ N.of_nat n * B ^ N.of_nat n); [apply N.mul_le_mono_r, L|]. rewrite N.mul_comm. apply N.mul_div_le, powB_nz.
Qed.
Lemma guess_loop_ok : forall fuel xn b q, pos xn -> pos b -> magnitude b <> 0 ->
  exists x1 q1, guess_loop fuel xn b q = Done (x1, q1) /\ pos x1 /\ q <= q1 <= q + N.of_nat fuel /\ magnitude xn = magnitude x1 + (q1 - q) * magnitude b /\
    (magnitude x1 < magnitude b \/ q1 = q + N.of_nat fuel).
Proof.
  induction fuel as [|fuel IH]; intros xn b q Px Pb Hb; cbn [guess_loop].
  - exists xn, q. split; [reflexivity|]. split; [exact Px|]. split; [lia|]. split; [|right; lia]. rewrite N.sub_diag. lia.
  - rewrite mp_ge_ok; [|apply Px|apply Pb|destruct Px as [_ ->], Pb as [_ ->]; reflexivity]. destruct (N.leb_spec (magnitude b) (magnitude xn)) as [L|L].
    + destruct (mp_sub_ok xn b (proj1 Px) (proj1 Pb)) as (r & E & Wr & Nr & Mr & _); [lia|exact Hb|]. replace (magnitude xn <? magnitude b) with false in * by (symmetry; apply N.ltb_ge; exact L).
      rewrite E. cbn [obind]. destruct (IH r b (q + 1) (conj Wr Nr) Pb Hb) as (x1 & q1 & E1 & P1 & Q1 & M1 & D1). exists x1, q1. split; [exact E1|]. split; [exact P1|]. split; [lia|]. split; [|destruct D1; [left; assumption|right; lia]].
      rewrite Mr in M1. replace (q1 - q) with (1 + (q1 - (q + 1))) by lia. lia.
    + exists xn, q. split; [reflexivity|]. split; [exact Px|]. split; [lia|]. split; [|left; exact L]. rewrite N.sub_diag. lia.
Qed.
Lemma B_gt : 256 < B. Proof. rewrite B_eq. reflexivity. Qed.
Lemma shl_digits : forall j, 2 ^ N.of_nat (64 * j) = B ^ N.of_nat j. Proof. intro j. symmetry. apply powB_2. Qed.
Lemma correct_ok : forall fuel xn yn j qt, pos xn -> pos yn -> qt < B ->
  let '(d, b) := correct fuel xn yn j qt in
  d <= qt /\ d * magnitude yn * B ^ N.of_nat j <= magnitude xn /\
  match b with Some b => pos b /\ magnitude b = d * magnitude yn * B ^ N.of_nat j | None => d = 0 end /\
  (forall d', d' <= qt -> qt - d' < N.of_nat fuel -> d' * magnitude yn * B ^ N.of_nat j <= magnitude xn -> d' <= d).
Proof.
  induction fuel as [|fuel IH]; intros xn yn j qt Px Py Hq; cbn [correct].
  - split; [lia|]. split; [lia|]. split; [reflexivity|]. intros d' _ H. lia.
  - rewrite landB, (N.mod_small qt B) by exact Hq. rewrite assign_none by apply (proj1 Py).
    destruct (mul_digit_ok yn qt (proj1 Py) (proj2 Py) Hq) as (W1 & N1 & M1). destruct (mp_lsh_ok (mul_digit yn qt) (64 * j) W1) as (W2 & N2 & M2 & _). rewrite M1, shl_digits in M2.
    set (b := mp_lsh _ _) in *. rewrite mp_lt_ok; [|apply Px|exact W2|rewrite N2, N1; apply Px]. destruct (N.ltb_spec (magnitude xn) (magnitude b)) as [L|L].
    + assert (qt <> 0) as Hq0 by (intros ->; lia). specialize (IH xn yn j (qt - 1) Px Py ltac:(lia)). destruct (correct fuel xn yn j (qt - 1)) as [d b']. destruct IH as (I1 & I2 & I3 & I4).
      split; [lia|]. split; [exact I2|]. split; [exact I3|]. intros d' H1 H2 H3. assert (d' <> qt). { intros ->. lia. } apply I4; [lia|lia|exact H3].
    + split; [lia|]. split; [lia|]. split; [split; [split; [exact W2|rewrite N2; exact N1]|lia]|]. intros; lia.
Qed.
Lemma updq_ok : forall q i v, (i < length q)%nat -> nth i q 0 = 0 -> wd q -> v < B -> dv (updq q i v) = dv q + v * B ^ N.of_nat i /\ wd (updq q i v) /\ length (updq q i v) = length q /\
  (forall k, k <> i -> nth k (updq q i v) 0 = nth k q 0).
Proof.
  induction q as [|d q IH]; intros i v L Z W V; cbn [length] in L; [lia|]. apply Forall_cons_iff in W. destruct W as [Hd W]. destruct i as [|i]; cbn [updq].
  - cbn [nth] in Z. subst d. cbn [digits_val length]. change (B ^ N.of_nat 0) with 1. split; [lia|]. split; [constructor; assumption|]. split; [reflexivity|]. intros k Hk. destruct k; [congruence|reflexivity].
  - cbn [nth] in Z. destruct (IH i v ltac:(lia) Z W V) as (E & W' & L' & Nk). cbn [digits_val length]. rewrite powB_S, E. split; [ring|]. split; [constructor; assumption|]. split; [lia|]. intros k Hk. destruct k; [reflexivity|]. cbn [nth]. apply Nk. lia.
Qed.
Lemma estimate_lt : forall xn yn n j, estimate xn yn n j < B.
Proof. intros. unfold estimate. cbv zeta. destruct (N.ltb_spec (B - 1) (match Nat.min (n + j) (size xn - 1) with O => nthd xn (Nat.min (n + j) (size xn - 1)) | S i => N.lor (shlw 128 (nthd xn (Nat.min (n + j) (size xn - 1))) 64) (nthd xn i) end / nthd yn (n - 1))); pose proof B_gt; lia. Qed.
Lemma two_digits : forall l i, wd l -> N.lor (shlw 128 (nth (S i) l 0) 64) (nth i l 0) = (dv l / B ^ N.of_nat i) mod (B * B).
Proof.
  intros l i W. rewrite !nth_dv by exact W. rewrite powB_S, (N.mul_comm B), <- N.div_div by (apply B_nz || apply powB_nz). set (z := dv l / B ^ N.of_nat i).
  rewrite N.mod_mul_r by apply B_nz. pose proof (N.mod_lt (z / B) B B_nz) as H1. pose proof (N.mod_lt z B B_nz) as H2. unfold shlw.
  rewrite N.mod_small. { rewrite B_eq in *. rewrite lor_add by exact H2. lia. }
  rewrite N.shiftl_mul_pow2. change (2 ^ 128) with (2 ^ 64 * 2 ^ 64). rewrite B_eq in *. apply N.mul_lt_mono_pos_r; [reflexivity|exact H1].
Qed.
Lemma div_mono_l : forall a b c, c <> 0 -> a <= b -> a / c <= b / c. Proof. intros. apply N.div_le_mono; assumption. Qed.
Ltac nz := repeat (apply N.neq_mul_0; split); first [assumption | apply B_nz | apply powB_nz | lia].
(* Knuth's bound on the estimate, with B^n <= 2Y < 2B^n, n = k + 1, P = B^k and J = B^j *)
Lemma lead_half : forall Y P, 0 < P -> B * P <= 2 * Y -> P * (Y / P) <= Y /\ Y < P * (Y / P + 1) /\ B <= 2 * (Y / P).
Proof.
  intros Y P P0 HY. pose proof (N.mul_div_le Y P ltac:(lia)) as V1. pose proof (N.mul_succ_div_gt Y P ltac:(lia)) as V2. rewrite <- N.add_1_r in V2.
  set (v := Y / P) in *. clearbody v. split; [exact V1|]. split; [exact V2|].
  assert (B * P < 2 * (v + 1) * P) as H by lia. apply N.mul_lt_mono_pos_r in H; [|exact P0]. assert (2 * 2 ^ 63 = B) as E by (rewrite B_eq; reflexivity). lia.
Qed.
Lemma not_over : forall a, a < B -> (B - 1 <? a) = false. Proof. intros a H. apply N.ltb_ge. lia. Qed.
Lemma is_over : forall a, B <= a -> (B - 1 <? a) = true. Proof. intros a H. apply N.ltb_lt. pose proof B_gt. lia. Qed.
Lemma le_ne_succ : forall a b, a <= b -> a <> b -> N.succ a <= b. Proof. intros. lia. Qed.
Lemma knuth : forall X Y P J v q, 0 < P -> 0 < J -> P * v <= Y -> Y < P * (v + 1) -> B <= 2 * v -> q * (Y * J) <= X -> X < (q + 1) * (Y * J) -> q < B ->
  q <= X / (P * J) / v <= q + 2.
Proof.
  intros X Y P J v q P0 J0 V1 V2 VB Q1 Q2 QB. pose proof B_gt as BG. assert (v <> 0) as V0 by lia. assert (P * J <> 0) as PJ by nz.
  pose proof (N.mul_div_le X (P * J) PJ) as U1. set (U := X / (P * J)) in *. pose proof (N.mul_div_le U v V0) as E1.
  assert (q <= U / v) as LQ.
  { apply N.div_le_lower_bound; [exact V0|]. apply N.div_le_lower_bound; [exact PJ|]. apply N.le_trans with (2 := Q1). replace (P * J * (v * q)) with (q * J * (P * v)) by ring. replace (q * (Y * J)) with (q * J * Y) by ring. apply N.mul_le_mono_l, V1. }
  split; [exact LQ|]. set (e := U / v) in *.
  assert (e * v < (q + 1) * (v + 1)) as E2.
  { apply (N.mul_lt_mono_pos_r (P * J)); [apply N.neq_0_lt_0, PJ|]. apply N.le_lt_trans with X. { apply N.le_trans with (U * (P * J)); [apply N.mul_le_mono_r; rewrite N.mul_comm; exact E1|rewrite N.mul_comm; exact U1]. }
    apply N.lt_le_trans with (1 := Q2). replace ((q + 1) * (v + 1) * (P * J)) with ((q + 1) * (P * (v + 1) * J)) by ring. apply N.mul_le_mono_l, N.mul_le_mono_r, N.lt_le_incl, V2. }
  clear - E2 QB VB BG LQ. nia.
Qed.
Lemma lead_lt : forall X Y P J, 0 < P -> 0 < J -> X < Y * (B * J) -> X / (B * P * J) <> Y / P -> X / (P * J) < Y / P * B.
Proof.
  intros X Y P J P0 J0 HX NC. pose proof B_nz as BZ. assert (X / (B * P * J) = X / (P * J) / B) as EU. { rewrite N.div_div by nz. f_equal. ring. }
  rewrite EU in NC. assert (X / (P * J) / B <= Y / P) as LE.
  { rewrite <- EU. assert (Y / P = (Y * (B * J)) / (B * P * J)) as ->. { replace (B * P * J) with (P * (B * J)) by ring. rewrite N.div_mul_cancel_r by nz. reflexivity. } apply div_mono_l; [nz|apply N.lt_le_incl, HX]. }
  pose proof (N.mul_succ_div_gt (X / (P * J)) B BZ) as G. apply N.lt_le_trans with (1 := G). rewrite (N.mul_comm (Y / P)). apply N.mul_le_mono_l, le_ne_succ; assumption.
Qed.
Lemma estimate_ok : forall xn yn k j, pos xn -> pos yn -> sig yn = S k -> B * B ^ N.of_nat k <= 2 * magnitude yn -> magnitude yn < B * B ^ N.of_nat k ->
  magnitude xn < magnitude yn * B ^ N.of_nat (S j) -> (k = O \/ magnitude xn / B ^ N.of_nat (S k + j) <> magnitude yn / B ^ N.of_nat k) ->
  let q := magnitude xn / (magnitude yn * B ^ N.of_nat j) in q = 0 \/ q <= estimate xn yn (S k) j <= q + 254.
Proof.
  intros xn yn k j Px Py Hs HY UY HX NC q. destruct (wf1 _ (proj1 Px)) as [_ Wx].
  assert (magnitude yn <> 0) as Y0. { intro E. rewrite E in HY. assert (B * B ^ N.of_nat k <> 0) as H by nz. clear - HY H. lia. }
  pose proof (top_digit yn (proj1 Py) Y0) as TD. rewrite Hs in TD. assert (S k - 1 = k)%nat as K1 by (clear; lia). rewrite K1 in TD.
  assert (B ^ N.of_nat (S k + j) = B * B ^ N.of_nat k * B ^ N.of_nat j) as EP by (rewrite powB_add, powB_S; reflexivity). rewrite EP in NC. rewrite powB_S in HX.
  pose proof (mag_lt xn (proj1 Px)) as XS. pose proof (wf_size xn (proj1 Px)) as S1.
  unfold estimate. cbv zeta. rewrite K1, TD. pose proof B_gt as BG. pose proof (powB_add k j) as EPJ.
  set (X := magnitude xn) in *. set (Y := magnitude yn) in *. set (P := B ^ N.of_nat k) in *. set (J := B ^ N.of_nat j) in *.
  assert (0 < P) as P0 by apply powB_pos. assert (0 < J) as J0 by apply powB_pos. destruct (lead_half Y P P0 HY) as (V1 & V2 & VB).
  assert (Y * J <> 0) as YJ by nz. assert (Y / P <> 0) as V0 by (clear - VB BG; lia).
  assert (q * (Y * J) <= X) as Q1 by (unfold q; rewrite N.mul_comm; apply N.mul_div_le, YJ).
  assert (X < (q + 1) * (Y * J)) as Q2 by (unfold q; rewrite N.mul_comm, N.add_1_r; apply N.mul_succ_div_gt, YJ).
  assert (q < B) as QB. { unfold q. apply N.div_lt_upper_bound; [exact YJ|]. replace (Y * J * B) with (Y * (B * J)) by ring. exact HX. }
  destruct (Nat.le_gt_cases (S k + j) (size xn - 1)) as [C|C].
  - rewrite (Nat.min_l _ _ C). change (S k + j)%nat with (S (k + j)) in *. unfold nthd. rewrite two_digits by exact Wx. rewrite <- mag. fold X. rewrite EPJ.
    assert (X / (P * J) < B * B) as UB. { apply N.div_lt_upper_bound; [nz|]. replace (P * J * (B * B)) with (B * P * (B * J)) by ring. apply N.lt_le_trans with (1 := HX). apply N.mul_le_mono_r, N.lt_le_incl, UY. }
    rewrite N.mod_small by exact UB. right.
    assert (X / (P * J) / (Y / P) < B) as QE.
    { apply N.div_lt_upper_bound; [exact V0|]. destruct NC as [K0|NC]; [|apply lead_lt; assumption].
      assert (P = 1) as -> by (unfold P; rewrite K0; reflexivity). rewrite N.div_1_r, N.mul_1_l. apply N.div_lt_upper_bound; [clear - J0; lia|]. replace (J * (Y * B)) with (Y * (B * J)) by ring. exact HX. }
    rewrite not_over by exact QE.
    pose proof (knuth X Y P J (Y / P) q P0 J0 V1 V2 VB Q1 Q2 QB) as K. set (e := X / (P * J) / (Y / P)) in *. clearbody e q. clear - K. lia.
  - rewrite Nat.min_r by (clear - C; lia). destruct (N.eq_dec q 0) as [Q0|Hq]; [left; exact Q0|right].
    assert (size xn <= S k + j)%nat as SL by (clear - C; lia). pose proof (powB_mono _ _ SL) as XM. rewrite EP in XM.
    assert (q * (Y * J) < 2 * (Y * J)) as H. { apply N.le_lt_trans with (1 := Q1). apply N.lt_le_trans with (1 := XS). apply N.le_trans with (1 := XM). rewrite N.mul_assoc. apply N.mul_le_mono_r. exact HY. }
    apply N.mul_lt_mono_pos_r in H; [|apply N.neq_0_lt_0, YJ]. assert (q = 1) as Q by (clear - H Hq; lia). rewrite Q in *. clear H Hq.
    assert (size xn = S k + j)%nat as SE.
    { destruct (Nat.eq_dec (size xn) (S k + j)) as [E|E]; [exact E|exfalso]. assert (size xn <= k + j)%nat as SL2 by (clear - SL E; lia). pose proof (powB_mono _ _ SL2) as XM2. rewrite EPJ in XM2.
      assert (P <= Y) as PY. { apply N.le_trans with (P * (Y / P)); [|exact V1]. apply N.le_trans with (P * 1); [rewrite N.mul_1_r; apply N.le_refl|]. apply N.mul_le_mono_l, (proj2 (N.le_succ_l 0 (Y / P))), N.neq_0_lt_0, V0. }
      assert (P * J <= Y * J) as PJ by (apply N.mul_le_mono_r, PY). clear - PJ XM2 XS Q1. lia. }
    rewrite SE. replace (S k + j - 1)%nat with (k + j)%nat by (clear; lia). destruct (k + j)%nat as [|i] eqn:KJ.
    + assert (k = O /\ j = O) as [K0 J1] by (clear - KJ; lia). assert (P = 1) as P1 by (unfold P; rewrite K0; reflexivity). assert (J = 1) as Je by (unfold J; rewrite J1; reflexivity). rewrite P1, Je, ?N.mul_1_r, ?N.div_1_r in *.
      unfold nthd. rewrite nth_dv by exact Wx. rewrite <- mag. fold X. change (B ^ N.of_nat 0) with 1. rewrite N.div_1_r. rewrite N.mod_small. 2: { rewrite SE, K0, J1 in XS. change (B ^ N.of_nat (1 + 0)) with (B ^ 1) in XS. rewrite N.pow_1_r in XS. exact XS. }
      assert (X / Y = 1) as ->. { rewrite <- Q. unfold q. rewrite Je, N.mul_1_r. reflexivity. } replace (B - 1 <? 1) with false by (symmetry; apply N.ltb_ge; clear - BG; lia). clear; lia.
    + unfold nthd. rewrite two_digits by exact Wx. rewrite <- mag. fold X.
      assert (B * B ^ N.of_nat i = P * J) as EI. { rewrite <- powB_S. exact EPJ. }
      set (I := B ^ N.of_nat i) in *. assert (I <> 0) as I0 by apply powB_nz.
      rewrite N.mod_small. 2: { apply N.div_lt_upper_bound; [exact I0|]. replace (I * (B * B)) with (B * (B * I)) by ring. rewrite EI, N.mul_assoc. apply N.lt_le_trans with (1 := XS). exact XM. }
      assert (B <= X / I / (Y / P)) as G.
      { apply N.div_le_lower_bound; [exact V0|]. apply N.div_le_lower_bound; [exact I0|]. replace (I * (Y / P * B)) with (Y / P * (B * I)) by ring. rewrite EI. apply N.le_trans with (Y * J); [|clear - Q1; lia].
        rewrite N.mul_assoc, (N.mul_comm (Y / P) P). apply N.mul_le_mono_r, V1. }
      rewrite is_over by exact G. clear; lia.
Qed.
Lemma div_loop_ok : forall j xn yn n q, pos xn -> pos yn -> magnitude yn <> 0 -> wd q -> (j <= length q)%nat -> (forall i, (i < j)%nat -> nth i q 0 = 0) ->
  exists x' q', div_loop j xn yn n q = Done (x', q') /\ pos x' /\ wd q' /\ length q' = length q /\ magnitude xn + magnitude yn * dv q = magnitude x' + magnitude yn * dv q' /\
    (forall k, n = S k -> sig yn = S k -> B * B ^ N.of_nat k <= 2 * magnitude yn -> magnitude yn < B * B ^ N.of_nat k -> magnitude xn < magnitude yn * B ^ N.of_nat j ->
      (k = O \/ forall i, (i < j)%nat -> (magnitude xn mod (magnitude yn * B ^ N.of_nat (S i))) / B ^ N.of_nat (S k + i) <> magnitude yn / B ^ N.of_nat k) -> magnitude x' < magnitude yn).
Proof.
  induction j as [|j IH]; intros xn yn n q Px Py Y0 Wq Lq Zq; cbn [div_loop].
  - exists xn, q. split; [reflexivity|]. split; [exact Px|]. split; [exact Wq|]. split; [reflexivity|]. split; [reflexivity|]. intros k _ _ _ _ H _. change (B ^ N.of_nat 0) with 1 in H. lia.
  - pose proof (correct_ok 255 xn yn j (estimate xn yn n j) Px Py (estimate_lt _ _ _ _)) as C. pose proof (estimate_lt xn yn n j) as EL. destruct (correct 255 xn yn j (estimate xn yn n j)) as [d b]. destruct C as (C1 & C2 & C3 & C4).
    assert (exists x1, match b with Some b => mp_sub (Some xn) b | None => Done xn end = Done x1 /\ pos x1 /\ magnitude x1 + d * magnitude yn * B ^ N.of_nat j = magnitude xn) as (x1 & E1 & P1 & M1).
    { destruct b as [b|].
      - destruct C3 as [Pb Mb]. destruct (N.eq_dec (magnitude b) 0) as [Zb|Zb]; [exists xn; split; [apply mp_sub_zero_r, Zb|]; split; [exact Px|lia]|].
        destruct (mp_sub_ok xn b (proj1 Px) (proj1 Pb)) as (r & E & Wr & Nr & Mr & _); [lia|exact Zb|]. replace (magnitude xn <? magnitude b) with false in * by (symmetry; apply N.ltb_ge; lia).
        exists r. split; [exact E|]. split; [split; assumption|]. lia.
      - exists xn. split; [reflexivity|]. split; [exact Px|]. subst d. lia. }
    rewrite E1. cbn [obind]. destruct (updq_ok q j d) as (U1 & U2 & U3 & U4); [lia|apply Zq; lia|exact Wq|lia|].
    destruct (IH x1 yn n (updq q j d) P1 Py Y0 U2) as (x' & q' & E2 & P2 & W2 & L2 & V2 & G2); [lia|intros i Hi; rewrite U4 by lia; apply Zq; lia|].
    exists x', q'. split; [exact E2|]. split; [exact P2|]. split; [exact W2|]. split; [lia|]. split; [rewrite <- V2, U1, <- M1; ring|].
    intros k Hn Hs HY UY HX NC. set (X := magnitude xn) in *. set (Y := magnitude yn) in *. subst n.
    assert (k = O \/ X / B ^ N.of_nat (S k + j) <> Y / B ^ N.of_nat k) as NC1. { destruct NC as [K0|NC]; [left; exact K0|right]. specialize (NC j (Nat.lt_succ_diag_r j)). rewrite N.mod_small in NC by exact HX. exact NC. }
    pose proof (estimate_ok xn yn k j Px Py Hs HY UY HX NC1) as EO. cbv zeta in EO. fold X Y in EO.
    set (J := B ^ N.of_nat j) in *. assert (0 < J) as J0 by apply powB_pos. set (qs := X / (Y * J)) in *.
    assert (qs * (Y * J) <= X) as Q1 by (unfold qs; rewrite N.mul_comm; apply N.mul_div_le; nz).
    assert (Y * J <> 0) as YJ by nz. assert (d <= qs) as D1. { unfold qs. apply N.div_le_lower_bound; [exact YJ|]. replace (Y * J * d) with (d * Y * J) by ring. exact C2. }
    pose proof (N.div_mod' X (Y * J)) as D2. fold qs in D2.
    assert (d = qs) as Ed.
    { apply N.le_antisymm; [exact D1|]. clearbody qs. destruct EO as [E0|[E3 E4]]; [rewrite E0; apply N.le_0_l|]. apply C4; [exact E3|change (N.of_nat 255) with 255; clear - E4; lia|rewrite <- N.mul_assoc; exact Q1]. }
    assert (magnitude x1 = X mod (Y * J)) as M1'. { rewrite Ed in M1. set (r := X mod (Y * J)) in *. clearbody qs r. clear - M1 D2. replace (qs * Y * J) with (Y * J * qs) in M1 by ring. lia. }
    apply (G2 k eq_refl Hs HY UY); [rewrite M1'; apply N.mod_lt; nz|]. destruct NC as [K0|NC]; [left; exact K0|right]. intros i Hi. rewrite M1'.
    replace ((X mod (Y * J)) mod (Y * B ^ N.of_nat (S i))) with (X mod (Y * B ^ N.of_nat (S i))); [apply NC; clear - Hi; lia|].
    assert (J = B ^ N.of_nat (S i) * B ^ N.of_nat (j - S i)) as EJ. { unfold J. rewrite <- powB_add. f_equal. f_equal. clear - Hi. lia. }
    rewrite EJ, N.mul_assoc. pose proof (powB_nz (N.of_nat (S i))). pose proof (powB_nz (N.of_nat (j - S i))).
    rewrite (N.mod_mul_r X (Y * B ^ N.of_nat (S i))) by nz. rewrite (N.mul_comm (Y * B ^ N.of_nat (S i)) (_ mod _)), N.mod_add by nz. symmetry. apply N.mod_mod. nz.
Qed.
(* the division: always x = q*y + r; the remainder is less than y unless two leading digits are equal at some step *)
Lemma mp_div_ok : forall x y, pos x -> pos y -> magnitude y <> 0 ->
  exists q r, mp_div x y = Done (Some (q, r)) /\ pos q /\ pos r /\ magnitude x = magnitude q * magnitude y + magnitude r /\
    (trimmed_digits y -> no_equal_leads (magnitude x) (magnitude y) -> magnitude r < magnitude y).
Proof.
  intros x y Px Py Y0. pose proof B_gt as BG. unfold mp_div. destruct (is_zero y) eqn:Zy; [apply is_zero_dv in Zy; rewrite <- mag in Zy; contradiction|].
  destruct (is_zero x) eqn:Zx.
  { apply is_zero_dv in Zx. rewrite <- mag in Zx. exists (num 0), (num 0). split; [reflexivity|]. split; [split; [apply wf_num, B_pos|reflexivity]|]. split; [split; [apply wf_num, B_pos|reflexivity]|]. rewrite mag_num. lia. }
  rewrite mp_lt_ok; [|apply Px|apply Py|destruct Px as [_ ->], Py as [_ ->]; reflexivity]. destruct (N.ltb_spec (magnitude x) (magnitude y)) as [L|L].
  { exists (num 0), x. rewrite assign_none by apply (proj1 Px). split; [reflexivity|]. split; [split; [apply wf_num, B_pos|reflexivity]|]. split; [exact Px|]. rewrite mag_num. lia. }
  assert (assign (Some (new_mp_digits (size x))) x = x) as ->. { rewrite <- (assign_none x) at 3 by apply (proj1 Px). reflexivity. }
  rewrite (assign_none y) by apply (proj1 Py). destruct (sig_bounds y (proj1 Py) Y0) as [[Sy1 Sy2] [Ylo _]]. destruct (sig y) as [|k] eqn:Sy; [lia|]. replace (S k - 1)%nat with k in Ylo by lia.
  destruct (normalize_ok 64 x y 0 k Px Py Sy Y0) as (xn & yn & s & En & Pxn & Pyn & Mx & My & Sx & Sy' & Sig & HY & UY).
  { change (N.of_nat 64) with 64. rewrite <- B_eq. rewrite (N.mul_comm 2), <- N.mul_assoc. apply N.mul_le_mono_l. lia. }
  rewrite En. rewrite Nat.add_0_l. set (m := Nat.max 1 (size xn - size yn)). rewrite Sig. rewrite (assign_none yn) by apply (proj1 Pyn).
  destruct (mp_lsh_ok yn (64 * m) (proj1 Pyn)) as (Wb & Nb & Mb & _). rewrite shl_digits in Mb. set (b := mp_lsh yn (64 * m)) in *. assert (pos b) as Pb by (split; [exact Wb|rewrite Nb; apply Pyn]).
  assert (0 < 2 ^ N.of_nat s) as S0 by (apply N.neq_0_lt_0, N.pow_nonzero; discriminate).
  assert (magnitude yn <> 0) as Yn0 by (rewrite My; nz). assert (magnitude b <> 0) as B0 by (rewrite Mb; nz).
  destruct (guess_loop_ok 255 xn b 0 Pxn Pb B0) as (x1 & qm & Eg & P1 & Q1 & M1 & D1). rewrite Eg. cbn [obind]. change (N.of_nat 255) with 255 in *. rewrite N.add_0_l in *. rewrite N.sub_0_r in M1.
  rewrite mp_ge_ok; [|apply P1|apply Pb|destruct P1 as [_ ->], Pb as [_ ->]; reflexivity].
  rewrite new_digits_64. replace (Nat.max 1 (m + 1)) with (m + 1)%nat by lia.
  assert (exists x2 q2 m2, (if ((qm =? 255) && (magnitude b <=? magnitude x1))%bool then (xn, 0, S m) else (x1, qm, m)) = (x2, q2, m2) /\ pos x2 /\ q2 < B /\ (m2 <= m + 1)%nat /\
    (m2 = m \/ (m2 = S m /\ q2 = 0)) /\ magnitude xn = magnitude x2 + q2 * magnitude b /\ (trimmed_digits y -> magnitude x2 < magnitude yn * B ^ N.of_nat m2)) as (x2 & q2 & m2 & E2 & P2 & Q2 & L2 & C2 & V2 & I2).
  { destruct ((qm =? 255) && (magnitude b <=? magnitude x1))%bool eqn:A.
    - exists xn, 0, (S m). split; [reflexivity|]. split; [exact Pxn|]. split; [lia|]. split; [lia|]. split; [right; split; reflexivity|]. split; [lia|]. intro T.
      assert (size y = S k) as SK. { unfold sig in Sy. rewrite strip_id in Sy by exact T. exact Sy. }
      rewrite Mx, My. apply N.lt_le_trans with (2 ^ N.of_nat s * B ^ N.of_nat (size x)). { apply N.mul_lt_mono_pos_l; [exact S0|]. apply mag_lt, Px. }
      rewrite <- N.mul_assoc. apply N.mul_le_mono_l. apply N.le_trans with (B ^ N.of_nat k * B ^ N.of_nat (S m)); [|apply N.mul_le_mono_r, Ylo]. rewrite <- powB_add. apply powB_mono. unfold m. lia.
    - exists x1, qm, m. split; [reflexivity|]. split; [exact P1|]. split; [lia|]. split; [lia|]. split; [left; reflexivity|]. split; [exact M1|]. intros _. rewrite (N.mul_comm (magnitude yn)), <- Mb.
      destruct D1 as [D1|D1]; [exact D1|]. rewrite D1, N.eqb_refl in A. cbn [andb] in A. apply N.leb_gt in A. exact A. }
  rewrite E2. destruct (updq_ok (repeat 0 (m + 1)) m q2) as (U1 & U2 & U3 & U4); [rewrite repeat_length; lia|apply nth_repeat|apply wd_zeros|exact Q2|]. rewrite dv_zeros, N.add_0_l in U1. rewrite repeat_length in U3.
  set (q0 := updq _ _ _) in *.
  assert (exists x3 q3, (if mp_lt x2 yn then Done (x2, q0) else div_loop m2 x2 yn (S k) q0) = Done (x3, q3) /\ pos x3 /\ wd q3 /\ (1 <= length q3)%nat /\ magnitude xn = magnitude x3 + magnitude yn * dv q3 /\
    (trimmed_digits y -> no_equal_leads (magnitude x) (magnitude y) -> magnitude x3 < magnitude yn)) as (x3 & q3 & E3 & P3 & W3 & L3 & V3 & I3).
  { rewrite mp_lt_ok; [|apply P2|apply Pyn|destruct P2 as [_ ->], Pyn as [_ ->]; reflexivity]. destruct (N.ltb_spec (magnitude x2) (magnitude yn)) as [LT|GE].
    - exists x2, q0. split; [reflexivity|]. split; [exact P2|]. split; [exact U2|]. split; [lia|]. split; [rewrite U1; lia|]. intros _ _. exact LT.
    - destruct (div_loop_ok m2 x2 yn (S k) q0 P2 Pyn Yn0 U2) as (x3 & q3 & E3 & P3 & W3 & L3 & V3 & G3).
      { lia. } { intros i Hi. destruct C2 as [->|[-> ->]]; [rewrite U4 by lia; apply nth_repeat|]. destruct (Nat.eq_dec i m) as [->|]; [|rewrite U4 by lia; apply nth_repeat]. unfold q0. clear. induction m as [|m IH]; [reflexivity|]. exact IH. }
      exists x3, q3. split; [exact E3|]. split; [exact P3|]. split; [exact W3|]. split; [lia|]. split; [rewrite <- V3, U1; lia|]. intros T NE.
      apply (G3 k eq_refl Sig HY UY (I2 T)). destruct (Nat.eq_dec k 0) as [K0|K0]; [left; exact K0|right]. intros i Hi.
      assert (magnitude x2 mod (magnitude yn * B ^ N.of_nat (S i)) = 2 ^ N.of_nat s * (magnitude x mod (magnitude y * B ^ N.of_nat (S i)))) as ->.
      { rewrite <- N.mul_mod_distr_l by nz. rewrite <- Mx, N.mul_assoc, <- My, V2.
        assert (exists z, q2 * magnitude b = z * (magnitude yn * B ^ N.of_nat (S i))) as [z ->].
        { destruct C2 as [->|[-> ->]]; [|exists 0; reflexivity]. exists (q2 * B ^ N.of_nat (m - S i)). rewrite Mb. replace m with ((m - S i) + S i)%nat at 1 by lia. rewrite powB_add. ring. }
        rewrite N.mod_add by nz. reflexivity. }
      specialize (NE (N.of_nat (S k)) (N.of_nat s) (N.of_nat i)). rewrite <- B_eq in NE. rewrite <- My in NE. rewrite powB_S in NE.
      assert (2 <= N.of_nat (S k)) as K2 by (clear - K0; lia).       assert (N.of_nat i + 1 = N.of_nat (S i)) as A1 by (clear; lia). assert (N.of_nat (S k) + N.of_nat i = N.of_nat (S k + i)) as A2 by (clear; lia). assert (N.of_nat (S k) - 1 = N.of_nat k) as A3 by (clear; lia).
      rewrite A1, A2, A3 in NE. exact (NE K2 Ylo HY UY). }
  rewrite E3. cbn [obind].
  assert (exists x4, (match s with O => x3 | S _ => mp_rsh x3 s end) = x4 /\ pos x4 /\ magnitude x4 = magnitude x3 / 2 ^ N.of_nat s) as (x4 & E4 & P4 & M4).
  { destruct s as [|s']; [exists x3; split; [reflexivity|]; split; [exact P3|]; change (2 ^ N.of_nat 0) with 1; rewrite N.div_1_r; reflexivity|].
    destruct (mp_rsh_ok x3 (S s') (proj1 P3)) as (R1 & R2 & R3 & _). exists (mp_rsh x3 (S s')). split; [reflexivity|]. split; [split; assumption|exact R3]. }
  rewrite E4. destruct (trimmed_ok q3 W3) as (T1 & T2 & T3 & _). destruct (trimmed_ok (data x4) (proj2 (wf1 _ (proj1 P4)))) as (R1 & R2 & R3 & _). rewrite <- mag in R3.
  set (q := match strip q3 with [] => mkMp false q3 | _ :: _ => trimmed q3 end). assert (pos q /\ magnitude q = dv q3) as [Pq Mq].
  { unfold q. destruct (strip q3); [|split; [split; assumption|exact T3]]. split; [split; [apply wf2; cbn [data]; split; [destruct q3; [cbn in L3; lia|discriminate]|exact W3]|reflexivity]|apply mag]. }
  exists q, (trimmed (data x4)). split; [reflexivity|]. split; [exact Pq|]. split; [split; assumption|]. rewrite Mq, R3, M4.
  assert (magnitude x3 = 2 ^ N.of_nat s * (magnitude x - dv q3 * magnitude y) /\ dv q3 * magnitude y <= magnitude x) as [MX LX].
  { rewrite Mx, My in V3. assert (dv q3 * magnitude y <= magnitude x) as H. { apply (N.mul_le_mono_pos_l _ _ (2 ^ N.of_nat s)); [exact S0|]. rewrite V3. replace (2 ^ N.of_nat s * (dv q3 * magnitude y)) with (2 ^ N.of_nat s * magnitude y * dv q3) by ring. lia. }
    split; [|exact H]. rewrite N.mul_sub_distr_l, V3. replace (2 ^ N.of_nat s * (dv q3 * magnitude y)) with (2 ^ N.of_nat s * magnitude y * dv q3) by ring. lia. }
  assert (magnitude x3 / 2 ^ N.of_nat s = magnitude x - dv q3 * magnitude y) as ED. { rewrite MX, N.mul_comm. apply N.div_mul. lia. }
  rewrite ED. split; [lia|]. intros T NE. specialize (I3 T NE). rewrite <- ED. apply N.div_lt_upper_bound; [lia|]. rewrite <- My. exact I3.
Qed.
