From Verif Require Import Words MpModel MpSpec.
From Coq Require Import PeanoNat.
Open Scope N_scope.

(* ---- numbers as lists of digits *)
Notation dv := digits_val.
Definition wd (l : list N) : Prop := Forall (fun d => d < B) l.
Lemma B_pos : 0 < B. Proof. reflexivity. Qed.
Lemma B_nz : B <> 0. Proof. discriminate. Qed.
Global Opaque B.
Lemma B_eq : B = 2 ^ 64. Proof. Transparent B. reflexivity. Qed.
Global Opaque B.
Lemma in_base_dv : forall l, in_base l = dv l.
Proof. induction l as [|d l IH]; [reflexivity|]. cbn [in_base digits_val]. rewrite IH, B_eq. reflexivity. Qed.
Lemma wf_wd : forall a, well_formed a <-> data a <> [] /\ wd (data a).
Proof. intro a. unfold well_formed, wd. rewrite B_eq. reflexivity. Qed.
Lemma wf1 : forall a, well_formed a -> data a <> [] /\ wd (data a). Proof. intros a. apply wf_wd. Qed.
Lemma wf2 : forall a, data a <> [] /\ wd (data a) -> well_formed a. Proof. intros a. apply wf_wd. Qed.
Lemma powB_nz : forall n, B ^ n <> 0. Proof. intro. apply N.pow_nonzero, B_nz. Qed.
Lemma powB_pos : forall n, 0 < B ^ n. Proof. intro. apply N.neq_0_lt_0, powB_nz. Qed.
Lemma powB_S : forall n, B ^ N.of_nat (S n) = B * B ^ N.of_nat n.
Proof. intro n. rewrite Nat2N.inj_succ, N.pow_succ_r'. reflexivity. Qed.
Lemma powB_add : forall n m, B ^ N.of_nat (n + m) = B ^ N.of_nat n * B ^ N.of_nat m.
Proof. intros. rewrite Nat2N.inj_add, N.pow_add_r. reflexivity. Qed.
Lemma dv_app : forall a b, dv (a ++ b) = dv a + B ^ N.of_nat (length a) * dv b.
Proof.
  induction a as [|d a IH]; intro b; [cbn [app digits_val length]; change (N.of_nat 0) with 0; rewrite N.pow_0_r; lia|].
  cbn [app digits_val length]. rewrite IH, powB_S. ring.
Qed.
Lemma dv_zeros : forall n, dv (repeat 0 n) = 0.
Proof. induction n as [|n IH]; [reflexivity|]. cbn [repeat digits_val]. rewrite IH. lia. Qed.
Lemma dv_pad : forall a n, dv (a ++ repeat 0 n) = dv a.
Proof. intros. rewrite dv_app, dv_zeros. lia. Qed.
Lemma wd_app : forall a b, wd a -> wd b -> wd (a ++ b).
Proof. intros a b HA HB. apply Forall_app. split; assumption. Qed.
Lemma wd_zeros : forall n, wd (repeat 0 n).
Proof. induction n; constructor; [apply B_pos|assumption]. Qed.
Lemma dv_lt : forall l, wd l -> dv l < B ^ N.of_nat (length l).
Proof.
  induction l as [|d l IH]; intro H; [cbn; reflexivity|]. apply Forall_cons_iff in H. destruct H as [Hd H]. cbn [digits_val length]. rewrite powB_S.
  specialize (IH H). nia.
Qed.
Lemma dv_zero : forall l, dv l = 0 -> l = repeat 0 (length l).
Proof.
  induction l as [|d l IH]; intro H; [reflexivity|]. cbn [digits_val] in H. cbn [length repeat]. pose proof B_pos.
  assert (d = 0) as -> by lia. f_equal. apply IH. nia.
Qed.
Lemma dv_inj : forall a b, wd a -> wd b -> length a = length b -> dv a = dv b -> a = b.
Proof.
  induction a as [|x a IH]; intros [|y b] Ha Hb L E; cbn [length] in L; try discriminate; [reflexivity|].
  apply Forall_cons_iff in Ha. apply Forall_cons_iff in Hb. destruct Ha as [Hx Ha]. destruct Hb as [Hy Hb]. cbn [digits_val] in E.
  assert (x = y) as ->. { rewrite <- (N.mod_small x B), <- (N.mod_small y B) by assumption. rewrite <- (N.mod_add x (dv a) B), <- (N.mod_add y (dv b) B) by apply B_nz. f_equal. lia. }
  f_equal. apply IH; try assumption; [lia|]. pose proof B_pos. nia.
Qed.
Lemma strip_pad : forall l, exists n, l = strip l ++ repeat 0 n.
Proof.
  induction l as [|d l [n IH]]; [exists O; reflexivity|]. cbn [strip]. destruct (strip l) as [|e r] eqn:E.
  - destruct (N.eqb_spec d 0) as [->|Hd]; [exists (S n); rewrite IH; reflexivity|]. exists n. cbn [app] in *. congruence.
  - exists n. cbn [app] in *. congruence.
Qed.
Lemma strip_val : forall l, dv (strip l) = dv l.
Proof. intro l. destruct (strip_pad l) as [n E]. rewrite E at 2. rewrite dv_pad. reflexivity. Qed.
Lemma strip_wd : forall l, wd l -> wd (strip l).
Proof. intros l H. destruct (strip_pad l) as [n E]. rewrite E in H. apply Forall_app in H. apply H. Qed.
Lemma strip_len : forall l, (length (strip l) <= length l)%nat.
Proof. intros l. destruct (strip_pad l) as [n E]. rewrite E at 2. rewrite app_length. lia. Qed.
Lemma strip_nil : forall l, strip l = [] <-> dv l = 0.
Proof.
  intro l. split; intro H; [rewrite <- strip_val, H; reflexivity|]. rewrite (dv_zero l H). clear H. induction (length l) as [|n IH]; [reflexivity|].
  cbn [repeat strip]. rewrite IH. reflexivity.
Qed.
Lemma strip_last : forall l, strip l <> [] -> last (strip l) 0 <> 0.
Proof.
  induction l as [|d l IH]; intro H; [contradiction (H eq_refl)|]. cbn [strip] in *. destruct (strip l) as [|e r] eqn:E.
  - destruct (N.eqb_spec d 0) as [->|Hd]; [congruence|]. exact Hd.
  - cbn [last]. apply IH. discriminate.
Qed.
Lemma strip_id : forall l, last l 0 <> 0 -> strip l = l.
Proof.
  induction l as [|d l IH]; intro H; [reflexivity|]. cbn [strip]. destruct l as [|e r].
  - cbn [strip last] in *. destruct (N.eqb_spec d 0) as [->|Hd]; [congruence|reflexivity].
  - rewrite IH by exact H. reflexivity.
Qed.
Lemma last_nth : forall (l : list N) n, length l = S n -> nth n l 0 = last l 0.
Proof.
  induction l as [|d l IH]; intros n H; [discriminate|]. destruct l as [|e r].
  - cbn [length] in H. assert (n = O) as -> by lia. reflexivity.
  - destruct n as [|n]; [discriminate|]. change (nth n (e :: r) 0 = last (e :: r) 0). apply IH. cbn [length] in *. lia.
Qed.
Lemma strip_bounds : forall l, wd l -> dv l <> 0 -> (1 <= length (strip l))%nat /\
  B ^ N.of_nat (length (strip l) - 1) <= dv l < B ^ N.of_nat (length (strip l)).
Proof.
  intros l W H. assert (strip l <> []) as N0 by (rewrite strip_nil; exact H). pose proof (strip_last l N0) as L. pose proof (strip_wd l W) as W'.
  rewrite <- (strip_val l). pose proof (dv_lt _ W') as U. destruct (exists_last N0) as (s & e & E). rewrite E in *. clear E N0.
  rewrite last_last in L. rewrite app_length in *. cbn [length] in *. split; [lia|]. split; [|exact U].
  replace (length s + 1 - 1)%nat with (length s) by lia. rewrite dv_app. cbn [digits_val]. pose proof (powB_pos (N.of_nat (length s))). nia.
Qed.
Lemma is_zero_dv : forall a, is_zero a = true <-> dv (data a) = 0.
Proof.
  intros [s l]. unfold is_zero. cbn [data]. induction l as [|d l IH]; [split; reflexivity|]. cbn [forallb digits_val]. rewrite andb_true_iff, IH, N.eqb_eq. pose proof B_pos. nia.
Qed.
Lemma landB : forall x, N.land x (B - 1) = x mod B.
Proof. intro x. rewrite B_eq. change (2 ^ 64 - 1) with (N.ones 64). apply N.land_ones. Qed.
Lemma shrB : forall x, N.shiftr x 64 = x / B.
Proof. intro x. rewrite B_eq. apply N.shiftr_div_pow2. Qed.
Lemma carry : forall s, s < 2 * B -> (if B - 1 <? s then 1 else 0) = s / B.
Proof.
  intros s H. pose proof B_pos. destruct (N.ltb_spec (B - 1) s) as [L|L].
  - apply N.div_unique with (s - B); lia.
  - symmetry. apply N.div_small. lia.
Qed.
(* sizes *)
Lemma new_digits_64 : forall n, new_digits (64 * n) = Nat.max 1 n.
Proof.
  intro n. unfold new_digits. f_equal. replace (64 * n + 63)%nat with (63 + n * 64)%nat by lia. rewrite Nat.div_add by discriminate. reflexivity.
Qed.
Lemma assign_none : forall a, data a <> [] -> assign None a = a.
Proof.
  intros [s l] H. unfold assign, new_mp_digits, new_mp, size. cbn [data neg] in *. rewrite new_digits_64, repeat_length.
  assert (1 <= length l)%nat by (destruct l; [congruence|]; cbn [length]; lia).
  replace (Nat.ltb (Nat.max 1 (length l)) (length l)) with false by (symmetry; apply Nat.ltb_ge; lia).
  replace (Nat.max 1 (length l) - length l)%nat with O by lia. cbn [repeat]. rewrite app_nil_r. reflexivity.
Qed.

(* ---- addition *)
Lemma add_loop_ok : forall a b c, wd a -> wd b -> (length b <= length a)%nat -> c <= 1 ->
  let '(r, c') := add_loop a b c in dv r + B ^ N.of_nat (length a) * c' = dv a + dv b + c /\ wd r /\ length r = length a /\ c' <= 1.
Proof.
  induction a as [|x a IH]; intros b c Ha Hb L Hc; cbn [add_loop].
  - destruct b; [|cbn [length] in L; lia]. cbn [digits_val length]. change (N.of_nat 0) with 0. rewrite N.pow_0_r. repeat split; try lia. constructor.
  - apply Forall_cons_iff in Ha. destruct Ha as [Hx Ha].
    set (y := match b with y :: _ => y | [] => 0 end). set (s := x + y + c).
    assert (y < B) as Hy. { unfold y. destruct b; [apply B_pos|]. apply Forall_cons_iff in Hb. apply Hb. }
    assert (dv b = y + B * dv (tl b)) as Eb by (unfold y; destruct b; cbn [digits_val tl]; lia).
    assert (wd (tl b)) as Ht by (destruct b; [constructor|]; apply Forall_cons_iff in Hb; apply Hb).
    rewrite carry by (unfold s; lia). pose proof (N.div_mod' s B) as D.
    assert (s / B <= 1) as Hc'. { assert (s / B < 2); [|lia]. apply N.div_lt_upper_bound; [apply B_nz|]. unfold s. lia. }
    specialize (IH (tl b) (s / B) Ha Ht ltac:(destruct b; cbn [length tl] in *; lia) Hc').
    destruct (add_loop a (tl b) (s / B)) as [r c']. destruct IH as (E & W & Lr & C). cbn [digits_val length]. rewrite landB, powB_S, Eb.
    repeat split.
    + replace (s mod B + B * dv r + B * B ^ N.of_nat (length a) * c') with (s mod B + B * (dv r + B ^ N.of_nat (length a) * c')) by ring.
      rewrite E. replace (s mod B + B * (dv a + dv (tl b) + s / B)) with (B * (s / B) + s mod B + B * dv a + B * dv (tl b)) by ring. rewrite <- D. unfold s. ring.
    + constructor; [apply N.mod_lt, B_nz|exact W].
    + lia.
    + exact C.
Qed.
Lemma max_min_ok : forall a b, let '(x, y) := max_min a b in (size y <= size x)%nat /\ ((x = a /\ y = b) \/ (x = b /\ y = a)).
Proof. intros a b. unfold max_min. destruct (Nat.leb_spec (size b) (size a)); split; auto; lia. Qed.
Lemma mag : forall a, magnitude a = dv (data a). Proof. intro. apply in_base_dv. Qed.
Lemma mp_add_cases : forall d s, well_formed d -> well_formed s -> (magnitude d + magnitude s = 0 /\ mp_add (Some d) s = UB) \/
  exists r, mp_add (Some d) s = Done r /\ neg r = neg d /\ magnitude r = magnitude d + magnitude s /\ well_formed r /\ trimmed_digits r.
Proof.
  intros d s Wd Ws. apply wf1 in Wd; apply wf1 in Ws. unfold mp_add. setoid_rewrite mag.
  pose proof (max_min_ok d s) as M. destruct (max_min d s) as [a b] eqn:E. destruct M as [L M].
  assert (wd (data a) /\ wd (data b)) as [Wa Wb] by (destruct M as [[-> ->]|[-> ->]]; split; (apply Wd || apply Ws)).
  assert (dv (data a) + dv (data b) = dv (data d) + dv (data s)) as S1 by (destruct M as [[-> ->]|[-> ->]]; lia).
  assert (size s + size d = size a + size b)%nat as S2 by (destruct M as [[-> ->]|[-> ->]]; lia).
  assert (1 <= size d /\ 1 <= size s)%nat as [P1 P2] by (unfold size; destruct Wd as [Wd _], Ws as [Ws _]; destruct (data d), (data s); cbn [length]; try congruence; lia).
  assert (size a < size s + size d)%nat as S3 by (destruct M as [[-> ->]|[-> ->]]; lia).
  pose proof (add_loop_ok (data a) (data b) 0 Wa Wb L ltac:(lia)) as A. destruct (add_loop (data a) (data b) 0) as [r c]. destruct A as (A1 & A2 & A3 & A4).
  rewrite new_digits_64, Nat.max_r by lia. rewrite A3. unfold size in S3 at 1. replace (Nat.ltb (length (data a)) (size s + size d)) with true by (symmetry; apply Nat.ltb_lt; exact S3).
  set (sum := r ++ _). assert (dv sum = dv (data d) + dv (data s) /\ wd sum) as [V W].
  { unfold sum. split.
    - rewrite dv_app, dv_pad, A3. replace (dv (if 0 <? c then [c] else [0])) with c by (destruct (N.ltb_spec 0 c); cbn [digits_val]; lia). lia.
    - apply wd_app; [exact A2|]. apply wd_app; [|apply wd_zeros]. assert (1 < B) by (rewrite B_eq; reflexivity). destruct (0 <? c); repeat constructor; lia. }
  destruct (strip sum) as [|e s'] eqn:Es; [left; apply strip_nil in Es; split; [lia|reflexivity]|]. right. exists (mkMp (neg d) (e :: s')). split; [reflexivity|]. cbn [neg data]. split; [reflexivity|].
  rewrite <- Es. split; [rewrite strip_val; exact V|]. split.
  - apply wf2. cbn [data]. rewrite Es at 1. split; [discriminate|apply strip_wd, W].
  - unfold trimmed_digits. cbn [data]. rewrite Es. rewrite <- Es. apply strip_last. congruence.
Qed.
Lemma mp_add_ok : forall d s, well_formed d -> well_formed s -> magnitude d + magnitude s <> 0 ->
  exists r, mp_add (Some d) s = Done r /\ neg r = neg d /\ magnitude r = magnitude d + magnitude s /\ well_formed r /\ trimmed_digits r.
Proof. intros d s Wd Ws H. destruct (mp_add_cases d s Wd Ws) as [[Z _]|E]; [contradiction|exact E]. Qed.

(* ---- subtraction *)
Definition borrow (c : bool) : N := if c then B - 1 else 0.
Definition b2 (c : bool) : N := if c then 1 else 0.
Lemma divmodW : forall W z q r, r < W -> z = W * q + r -> z / W = q /\ z mod W = r.
Proof. intros W z q r Hr ->. split; [symmetry; apply N.div_unique with r; lia|symmetry; apply N.mod_unique with q; lia]. Qed.
Lemma sub_step : forall x y c, x < B -> y < B ->
  let bsub := addw 128 (subw 128 x y) (borrow c) in
  let c' := (x <? y + b2 c) in
  addw 64 (borrow c) (N.shiftr bsub 64) = borrow c' /\ N.land bsub (B - 1) + y + b2 c = x + B * b2 c' /\ N.land bsub (B - 1) < B.
Proof.
  intros x y c Hx Hy. cbv zeta. rewrite landB, shrB. split; [|split; [|apply N.mod_lt, B_nz]];
  unfold addw, subw, borrow, b2; rewrite B_eq in *; set (W := 2 ^ 64) in *;
  assert (2 ^ 128 = W * W) as -> by reflexivity; assert (1 < W) as HW by reflexivity; clearbody W;
  rewrite (N.mod_small y) by nia; replace (x + (W * W - y)) with (x + W * W - y) by nia.
  - destruct c.
    + destruct (N.ltb_spec x (y + 1)) as [L|L].
      * destruct (N.eq_dec x y) as [->|Ne].
        -- replace (y + W * W - y) with (0 + 1 * (W * W)) by lia. rewrite N.mod_add, N.mod_0_l, N.add_0_l by nia.
           rewrite (N.mod_small (W - 1)) by nia. rewrite N.div_small by lia. rewrite N.add_0_r. apply N.mod_small. lia.
        -- rewrite (N.mod_small (x + W * W - y)) by nia. replace (x + W * W - y + (W - 1)) with ((x + W - 1 - y) + 1 * (W * W)) by nia.
           rewrite N.mod_add by nia. rewrite (N.mod_small (x + W - 1 - y)) by nia. rewrite N.div_small by lia. rewrite N.add_0_r. apply N.mod_small. lia.
      * replace (x + W * W - y) with ((x - y) + 1 * (W * W)) by nia. rewrite N.mod_add by nia. rewrite (N.mod_small (x - y)) by nia.
        rewrite (N.mod_small (x - y + (W - 1))) by nia. destruct (divmodW W (x - y + (W - 1)) 1 (x - y - 1)) as [-> _]; [lia|lia|].
        replace (W - 1 + 1) with (1 * W) by lia. apply N.mod_mul. lia.
    + destruct (N.ltb_spec x (y + 0)) as [L|L]; rewrite !N.add_0_r.
      * rewrite !(N.mod_small (x + W * W - y) (W * W)) by nia. destruct (divmodW W (x + W * W - y) (W - 1) (x + W - y)) as [-> _]; [lia|nia|].
        apply N.mod_small. lia.
      * replace (x + W * W - y) with ((x - y) + 1 * (W * W)) by nia. rewrite N.mod_add by nia. rewrite !(N.mod_small (x - y)) by nia.
        rewrite N.div_small by lia. reflexivity.
  - destruct c.
    + destruct (N.ltb_spec x (y + 1)) as [L|L].
      * destruct (N.eq_dec x y) as [->|Ne].
        -- replace (y + W * W - y) with (0 + 1 * (W * W)) by lia. rewrite N.mod_add, N.mod_0_l, N.add_0_l by nia.
           rewrite (N.mod_small (W - 1)) by nia. rewrite N.mod_small by lia. lia.
        -- rewrite (N.mod_small (x + W * W - y)) by nia. replace (x + W * W - y + (W - 1)) with ((x + W - 1 - y) + 1 * (W * W)) by nia.
           rewrite N.mod_add by nia. rewrite (N.mod_small (x + W - 1 - y)) by nia. rewrite N.mod_small by lia. lia.
      * replace (x + W * W - y) with ((x - y) + 1 * (W * W)) by nia. rewrite N.mod_add by nia. rewrite (N.mod_small (x - y)) by nia.
        rewrite (N.mod_small (x - y + (W - 1))) by nia. destruct (divmodW W (x - y + (W - 1)) 1 (x - y - 1)) as [_ ->]; [lia|lia|]. lia.
    + destruct (N.ltb_spec x (y + 0)) as [L|L]; rewrite !N.add_0_r.
      * rewrite !(N.mod_small (x + W * W - y) (W * W)) by nia. destruct (divmodW W (x + W * W - y) (W - 1) (x + W - y)) as [_ ->]; [lia|nia|]. lia.
      * replace (x + W * W - y) with ((x - y) + 1 * (W * W)) by nia. rewrite N.mod_add by nia. rewrite !(N.mod_small (x - y)) by nia. lia.
Qed.
Lemma dv_hd_tl : forall l, dv l = hd 0 l + B * dv (tl l). Proof. destruct l; cbn [digits_val hd tl]; lia. Qed.
Lemma wd_hd : forall l, wd l -> hd 0 l < B. Proof. intros l H. destruct l; cbn; [apply B_pos|]. apply Forall_cons_iff in H. apply H. Qed.
Lemma wd_tl : forall l, wd l -> wd (tl l). Proof. intros l H. destruct l; cbn; [constructor|]. apply Forall_cons_iff in H. apply H. Qed.
Lemma sub_loop_ok : forall n a b c, wd a -> wd b -> (length a <= n)%nat -> (length b <= n)%nat ->
  exists r c', sub_loop n a b (borrow c) = (r, borrow c') /\ dv r + dv b + b2 c = dv a + B ^ N.of_nat n * b2 c' /\ wd r /\ length r = n.
Proof.
  induction n as [|n IH]; intros a b c Wa Wb La Lb; cbn [sub_loop].
  - destruct a, b; cbn [length] in La, Lb; try lia. exists [], c. change (N.of_nat 0) with 0. rewrite N.pow_0_r. cbn [digits_val length]. repeat split; try lia. constructor.
  - pose proof (sub_step (hd 0 a) (hd 0 b) c (wd_hd a Wa) (wd_hd b Wb)) as S1. cbv zeta in S1. set (bs := addw 128 _ _) in *. destruct S1 as (S1 & S2 & S3). rewrite S1.
    set (c1 := hd 0 a <? hd 0 b + b2 c) in *.
    destruct (IH (tl a) (tl b) c1 (wd_tl _ Wa) (wd_tl _ Wb)) as (r & c' & E & V & W & L).
    { destruct a; cbn [length tl] in *; lia. } { destruct b; cbn [length tl] in *; lia. }
    rewrite E. exists (N.land bs (B - 1) :: r), c'. split; [reflexivity|]. cbn [digits_val length]. rewrite powB_S, (dv_hd_tl a), (dv_hd_tl b).
    split; [|split; [constructor; assumption|lia]].
    replace (N.land bs (B - 1) + B * dv r + (hd 0 b + B * dv (tl b)) + b2 c) with ((N.land bs (B - 1) + hd 0 b + b2 c) + B * (dv r + dv (tl b))) by ring.
    rewrite S2. replace (hd 0 a + B * b2 c1 + B * (dv r + dv (tl b))) with (hd 0 a + B * (dv r + dv (tl b) + b2 c1)) by ring. rewrite V. ring.
Qed.
Lemma notw_ok : forall l, wd l -> dv (map (notw 64) l) + dv l = B ^ N.of_nat (length l) - 1 /\ wd (map (notw 64) l).
Proof.
  induction l as [|d l IH]; intro H; [split; [reflexivity|constructor]|]. apply Forall_cons_iff in H. destruct H as [Hd H]. destruct (IH H) as [V W].
  assert (notw 64 d + d = B - 1) as E.
  { unfold notw. rewrite N.lxor_comm. change (N.lxor d (N.ones 64)) with (N.lnot d 64). assert (d <= N.ones 64) by (rewrite B_eq in Hd; change (N.ones 64) with (2 ^ 64 - 1); lia).
    rewrite N.lnot_sub_low; [rewrite B_eq; change (N.ones 64) with (2 ^ 64 - 1) in *; lia|].
    destruct (N.eq_dec d 0) as [->|Z]; [reflexivity|]. apply N.log2_lt_pow2; [lia|]. rewrite <- B_eq. exact Hd. }
  split; [|constructor; [pose proof B_pos; lia|exact W]]. cbn [map digits_val length]. rewrite powB_S.
  replace (notw 64 d + B * dv (map (notw 64) l) + (d + B * dv l)) with ((notw 64 d + d) + B * (dv (map (notw 64) l) + dv l)) by ring. rewrite E, V.
  pose proof (powB_pos (N.of_nat (length l))). pose proof B_pos. nia.
Qed.
Lemma inv_cmplt_ok : forall a, well_formed a -> magnitude a <> 0 ->
  exists r, inv_cmplt a = Done r /\ neg r = neg a /\ magnitude r = B ^ N.of_nat (size a) - magnitude a /\ well_formed r /\ trimmed_digits r.
Proof.
  intros a W H. rewrite mag in H. apply wf1 in W. destruct W as [W0 W]. destruct (notw_ok _ W) as [V Wn]. pose proof (dv_lt _ W) as U. fold (size a) in *.
  assert (well_formed (mp_not a)) as W1. { apply wf2. split; [|exact Wn]. unfold mp_not. cbn [data]. destruct (data a); [congruence|discriminate]. }
  assert (well_formed (num 1)) as W2. { apply wf2. split; [discriminate|]. unfold wd. rewrite B_eq. repeat constructor. }
  destruct (mp_add_ok (mp_not a) (num 1) W1 W2) as (r & E & Nr & M & R).
  { rewrite !mag. cbn [data num digits_val]. lia. }
  exists r. split; [exact E|]. split; [exact Nr|]. split; [|exact R]. rewrite M, !mag. unfold mp_not, num. cbn [data digits_val]. unfold size in *. lia.
Qed.
Lemma wf_size : forall a, well_formed a -> (1 <= size a)%nat.
Proof. intros a [H _]. unfold size. destruct (data a); [congruence|]. cbn. lia. Qed.
Lemma mag_lt : forall a, well_formed a -> magnitude a < B ^ N.of_nat (size a).
Proof. intros a H. rewrite mag. apply dv_lt. apply wf1 in H. apply H. Qed.
Lemma powB_mono : forall n m, (n <= m)%nat -> B ^ N.of_nat n <= B ^ N.of_nat m.
Proof. intros. apply N.pow_le_mono_r; [apply B_nz|lia]. Qed.
(* the difference of two values other than zero *)
Lemma mp_sub_ok : forall d s, well_formed d -> well_formed s -> magnitude d <> 0 -> magnitude s <> 0 ->
  exists r, mp_sub (Some d) s = Done r /\ well_formed r /\ neg r = (magnitude d <? magnitude s) /\
    magnitude r = (if magnitude d <? magnitude s then magnitude s - magnitude d else magnitude d - magnitude s) /\
    (magnitude d <> magnitude s -> trimmed_digits r) /\ (size r <= Nat.max (size d) (size s))%nat.
Proof.
  intros d s Wd Ws Hd Hs. pose proof (mag_lt _ Wd) as Ud. pose proof (mag_lt _ Ws) as Us. pose proof (wf_size _ Wd) as Pd. pose proof (wf_size _ Ws) as Ps.
  rewrite (mag d), (mag s) in *. apply wf1 in Wd. apply wf1 in Ws. unfold mp_sub.
  destruct (is_zero s) eqn:Zs; [apply is_zero_dv in Zs; contradiction|]. destruct (is_zero d) eqn:Zd; [apply is_zero_dv in Zd; contradiction|].
  set (n := Nat.max (size d) (size s)). assert (1 <= n)%nat as Hn by lia.
  destruct (sub_loop_ok n (data d) (data s) false (proj2 Wd) (proj2 Ws)) as (r & c & E & V & Wr & L); [unfold size in n; lia|unfold size in n; lia|].
  change (borrow false) with 0 in E. rewrite E. rewrite new_digits_64, Nat.max_r by lia. rewrite Nat.sub_diag. cbn [repeat]. rewrite app_nil_r.
  pose proof (dv_lt _ Wr) as Ur. rewrite L in Ur.
  pose proof (powB_mono (size d) n ltac:(lia)) as Bd. pose proof (powB_mono (size s) n ltac:(lia)) as Bs.
  assert (well_formed (mkMp false r)) as Wr'. { apply wf2. split; [|exact Wr]. cbn [data]. destruct r; [cbn in L; lia|discriminate]. }
  cbn [b2] in V. rewrite N.add_0_r in V. destruct c; unfold borrow, b2 in *.
  - rewrite N.eqb_refl. assert (dv (data d) < dv (data s)) as Lt by lia.
    destruct (inv_cmplt_ok (mkMp false r) Wr') as (t & Et & Nt & Mt & Wt & Tt); [rewrite mag; cbn [data]; lia|].
    rewrite Et. cbn [obind set_neg data neg]. rewrite mag in Mt at 1. rewrite mag in Mt. cbn [data size] in Mt. unfold size in Mt. cbn [data] in Mt. rewrite L in Mt.
    rewrite (strip_id (data t) Tt). apply N.ltb_lt in Lt. rewrite Lt.
    assert (data t <> []) as Nt' by (apply wf1 in Wt; apply Wt).
    exists (mkMp true (data t)). split; [destruct (data t); [congruence|reflexivity]|]. split; [exact Wt|]. split; [reflexivity|]. split; [rewrite mag; cbn [data]; lia|]. split; [intros _; exact Tt|].
    unfold size. cbn [data]. fold n. apply Nat.nlt_ge. intro C. unfold trimmed_digits in Tt. apply wf1 in Wt. destruct (strip_bounds (data t) (proj2 Wt)) as (_ & Lo & _); [lia|].
    rewrite (strip_id (data t) Tt) in Lo. pose proof (powB_mono n (length (data t) - 1) ltac:(lia)). apply N.ltb_lt in Lt. lia.
  - replace (0 =? B - 1) with false by (symmetry; apply N.eqb_neq; rewrite B_eq; discriminate). cbn [obind].
    assert (dv (data d) = dv (data s) + dv r) as Ev by lia. replace (dv (data d) <? dv (data s)) with false by (symmetry; apply N.ltb_ge; lia). cbn [data neg].
    destruct (strip r) as [|e r'] eqn:Er.
    + apply strip_nil in Er. eexists. split; [reflexivity|]. split; [apply wf2; cbn [data]; split; [|apply wd_zeros]; unfold size; cbn [data]; rewrite L; destruct n; [lia|discriminate]|].
      split; [reflexivity|]. split; [rewrite mag; cbn [data]; rewrite dv_zeros; lia|]. split; [intro; lia|]. unfold size. cbn [data]. rewrite repeat_length. unfold size in n. lia.
    + eexists. split; [reflexivity|]. rewrite <- Er. split; [apply wf2; cbn [data]; split; [congruence|apply strip_wd, Wr]|]. split; [reflexivity|].
      split; [rewrite mag; cbn [data]; rewrite strip_val; lia|]. split; [intros _; apply strip_last; congruence|]. unfold size. cbn [data]. pose proof (strip_len r). unfold size in n. lia.
Qed.
Lemma mp_sub_zero_r : forall d s, magnitude s = 0 -> mp_sub (Some d) s = Done d.
Proof. intros d s H. unfold mp_sub. rewrite mag in H. apply is_zero_dv in H. rewrite H. reflexivity. Qed.
Lemma mp_sub_zero_l : forall d s, well_formed s -> magnitude d = 0 -> magnitude s <> 0 -> mp_sub (Some d) s = Done s.
Proof.
  intros d s W Hd Hs. unfold mp_sub. rewrite mag in *. apply is_zero_dv in Hd. rewrite Hd. destruct (is_zero s) eqn:E; [apply is_zero_dv in E; contradiction|].
  rewrite assign_none by apply W. reflexivity.
Qed.

(* ---- multiplication *)
Lemma dv_nth_tail : forall l k, (forall i, (k <= i)%nat -> nth i l 0 = 0) -> (k <= length l)%nat -> l = firstn k l ++ repeat 0 (length l - k).
Proof.
  induction l as [|d l IH]; intros k H L; [cbn [length] in *; assert (k = O) as -> by lia; reflexivity|]. destruct k as [|k].
  - cbn [firstn app length]. rewrite Nat.sub_0_r. specialize (H O (Nat.le_refl _)) as H0. cbn [nth] in H0. rewrite H0. cbn [repeat]. f_equal.
    rewrite (IH O) at 1; [|intros i _; apply (H (S i)); lia|lia]. cbn [firstn app]. rewrite Nat.sub_0_r. reflexivity.
  - cbn [firstn app length]. f_equal. apply IH; [intros i Hi; apply (H (S i)); lia|cbn [length] in L; lia].
Qed.
Lemma mul_row_ok : forall x m y mc ac, wd x -> wd m -> y < B -> ac <= 1 -> mc + ac <= B - 1 -> (length x < length m)%nat ->
  (forall i, (length x <= i)%nat -> nth i m 0 = 0) ->
  let r := mul_row y x m mc ac in
  dv r = dv m + y * dv x + mc + ac /\ wd r /\ length r = length m /\ (forall i, (length x < i)%nat -> nth i r 0 = 0).
Proof.
  induction x as [|d x IH]; intros [|w m] y mc ac Wx Wm Hy Hac Hmc L Z; cbn [length] in L; try lia; cbv zeta.
  - specialize (Z O (Nat.le_refl _)) as Z0. cbn [nth] in Z0. subst w. cbn [mul_row digits_val length]. rewrite landB, N.mod_small by (pose proof B_pos; lia).
    apply Forall_cons_iff in Wm. destruct Wm as [_ Wm]. split; [cbn [digits_val]; lia|]. split; [constructor; [pose proof B_pos; lia|exact Wm]|]. split; [reflexivity|].
    intros i Hi. destruct i as [|i]; [lia|]. cbn [nth]. apply (Z (S i)). cbn [length]. lia.
  - apply Forall_cons_iff in Wx. destruct Wx as [Hd Wx]. apply Forall_cons_iff in Wm. destruct Wm as [Hw Wm].
    cbn [mul_row]. rewrite !landB, shrB. set (bmul := y * d + mc). set (bsum := w + bmul mod B + ac).
    pose proof (N.div_mod' bmul B) as D1. pose proof (N.div_mod' bsum B) as D2. pose proof (N.mod_lt bmul B B_nz) as R1. pose proof (N.mod_lt bsum B B_nz) as R2.
    rewrite carry by (unfold bsum; lia). pose proof B_pos as BP.
    assert (bsum / B <= 1) as C1. { assert (bsum / B < 2); [|lia]. apply N.div_lt_upper_bound; [apply B_nz|]. unfold bsum. lia. }
    assert (y * d <= (B - 1) * (B - 1)) as YD by (apply N.mul_le_mono; lia).
    assert (B * (bmul / B + bsum / B) <= B * B - 1) as C2.
    { clear IH. unfold bsum in D2 at 1. unfold bmul in D1 at 1. clearbody bsum. clearbody bmul. set (r1 := bmul mod B) in *. set (r2 := bsum mod B) in *. set (q1 := bmul / B) in *. set (q2 := bsum / B) in *. clearbody r1 r2 q1 q2.
      set (p := y * d) in *. clearbody p. nia. }
    destruct (IH m y (bmul / B) (bsum / B) Wx Wm Hy C1) as (V & W & Ln & Zn); [nia|lia|intros i Hi; apply (Z (S i)); cbn [length]; lia|].
    cbn [digits_val length]. split; [|split; [constructor; assumption|split; [rewrite Ln; reflexivity|]]].
    + rewrite V. replace (bsum mod B + B * (dv m + y * dv x + bmul / B + bsum / B)) with (B * (bsum / B) + bsum mod B + B * (bmul / B) + B * dv m + y * (B * dv x)) by ring.
      rewrite <- D2. unfold bsum. replace (w + bmul mod B + ac + B * (bmul / B) + B * dv m + y * (B * dv x)) with (B * (bmul / B) + bmul mod B + w + ac + B * dv m + y * (B * dv x)) by ring.
      rewrite <- D1. unfold bmul. ring.
    + intros i Hi. destruct i as [|i]; [lia|]. cbn [nth]. apply Zn. cbn [length] in Hi. lia.
Qed.
Lemma mul_loop_ok : forall ys x m, wd ys -> wd x -> wd m -> (length x + length ys <= length m)%nat -> (1 <= length x)%nat ->
  (forall i, (length x <= i)%nat -> nth i m 0 = 0) -> dv (mul_loop ys x m) = dv m + dv ys * dv x /\ wd (mul_loop ys x m).
Proof.
  induction ys as [|y ys IH]; intros x m Wy Wx Wm L Lx Z; cbn [mul_loop]; [split; [cbn [digits_val]; lia|exact Wm]|].
  apply Forall_cons_iff in Wy. destruct Wy as [Hy Wy]. cbn [length] in L. pose proof B_pos.
  destruct (mul_row_ok x m y 0 0 Wx Wm Hy ltac:(lia) ltac:(lia) ltac:(lia) Z) as (V & W & Ln & Zn). destruct (mul_row y x m 0 0) as [|w r]; [cbn [length] in Ln; lia|].
  apply Forall_cons_iff in W. destruct W as [Hw W]. cbn [length] in Ln.
  destruct (IH x r Wy Wx W) as [V2 W2]; [lia|exact Lx|intros i Hi; apply (Zn (S i)); lia|]. split; [|constructor; assumption].
  cbn [digits_val] in *. rewrite V2. replace (w + B * (dv r + dv ys * dv x)) with (w + B * dv r + B * dv ys * dv x) by ring. rewrite V. ring.
Qed.
Lemma trimmed_ok : forall l, wd l -> well_formed (trimmed l) /\ neg (trimmed l) = false /\ magnitude (trimmed l) = dv l /\
  (size (trimmed l) <= Nat.max 1 (length l))%nat /\ (dv l <> 0 -> trimmed_digits (trimmed l)).
Proof.
  intros l W. unfold trimmed, size, trimmed_digits. rewrite mag. rewrite new_digits_64. cbn [data neg]. split; [|split; [reflexivity|split; [rewrite dv_pad; apply strip_val|split]]].
  - apply wf2. cbn [data]. split; [|apply wd_app; [apply strip_wd, W|apply wd_zeros]]. destruct (strip l); discriminate.
  - rewrite app_length, repeat_length. pose proof (strip_len l). lia.
  - intro H. assert (strip l <> []) as N0 by (rewrite strip_nil; exact H). pose proof (strip_last l N0). destruct (strip l) as [|e r]; [congruence|]. cbn [length].
    replace (Nat.max 1 (S (length r)) - S (length r))%nat with O by lia. cbn [repeat]. rewrite app_nil_r. assumption.
Qed.
Lemma mp_mul_ok : forall d s, well_formed d -> well_formed s ->
  well_formed (mp_mul (Some d) s) /\ neg (mp_mul (Some d) s) = false /\ magnitude (mp_mul (Some d) s) = magnitude d * magnitude s /\
  (magnitude d * magnitude s <> 0 -> trimmed_digits (mp_mul (Some d) s)).
Proof.
  intros d s Wd Ws. pose proof (wf_size _ Wd) as Pd. pose proof (wf_size _ Ws) as Ps. apply wf1 in Wd. apply wf1 in Ws. cbn [mp_mul]. rewrite (mag d), (mag s).
  pose proof (max_min_ok d s) as M. destruct (max_min d s) as [x y]. destruct M as [L M].
  assert (wd (data x) /\ wd (data y) /\ 1 <= size x /\ size x + size y = size d + size s)%nat as (Wx & Wy & Px & S1) by (destruct M as [[-> ->]|[-> ->]]; repeat split; (apply Wd || apply Ws || lia)).
  assert (dv (data d) * dv (data s) = dv (data y) * dv (data x)) as -> by (destruct M as [[-> ->]|[-> ->]]; lia).
  unfold new_mp_digits, new_mp. cbn [data]. rewrite new_digits_64, Nat.max_r by lia.
  destruct (mul_loop_ok (data y) (data x) (repeat 0 (size d + size s + 1)) Wy Wx (wd_zeros _)) as [V W].
  { rewrite repeat_length. unfold size in *. lia. } { exact Px. } { intros i Hi. destruct (Nat.lt_ge_cases i (size d + size s + 1)); [apply nth_repeat|apply nth_overflow; rewrite repeat_length; lia]. }
  rewrite dv_zeros, N.add_0_l in V. rewrite <- V. destruct (trimmed_ok _ W) as (T1 & T2 & T3 & T4 & T5). split; [exact T1|split; [exact T2|split; [exact T3|exact T5]]].
Qed.
Lemma mul_digit_loop_ok : forall l digit mc, wd l -> digit < B -> mc < B ->
  let '(r, mc') := mul_digit_loop l digit mc in dv r + B ^ N.of_nat (length l) * mc' = dv l * digit + mc /\ wd r /\ length r = length l /\ mc' < B.
Proof.
  induction l as [|d l IH]; intros digit mc W Hd Hm; cbn [mul_digit_loop].
  - cbn [digits_val length]. change (N.of_nat 0) with 0. rewrite N.pow_0_r. repeat split; try lia. constructor.
  - apply Forall_cons_iff in W. destruct W as [H W]. rewrite landB, shrB. set (bmul := d * digit + mc). pose proof (N.div_mod' bmul B) as D.
    assert (bmul / B < B) as Hq. { apply N.div_lt_upper_bound; [apply B_nz|]. unfold bmul. nia. }
    specialize (IH digit (bmul / B) W Hd Hq). destruct (mul_digit_loop l digit (bmul / B)) as [r mc']. destruct IH as (V & Wr & L & Hmc). cbn [digits_val length]. rewrite powB_S.
    split; [|split; [constructor; [apply N.mod_lt, B_nz|exact Wr]|split; [lia|exact Hmc]]].
    replace (bmul mod B + B * dv r + B * B ^ N.of_nat (length l) * mc') with (bmul mod B + B * (dv r + B ^ N.of_nat (length l) * mc')) by ring. rewrite V.
    replace (bmul mod B + B * (dv l * digit + bmul / B)) with (B * (bmul / B) + bmul mod B + B * dv l * digit) by ring. rewrite <- D. unfold bmul. ring.
Qed.

(* ---- shifts *)
Lemma shl1_digit : forall d lc, d < B -> lc <= 1 -> N.lor (shlw 64 d 1) lc + B * N.shiftr d 63 = 2 * d + lc /\ N.lor (shlw 64 d 1) lc < B /\ N.shiftr d 63 <= 1.
Proof.
  intros d lc Hd Hl. unfold shlw. rewrite N.shiftl_mul_pow2, N.shiftr_div_pow2. change (2 ^ 1) with 2.
  assert (d * 2 mod 2 ^ 64 = 2 * (d mod 2 ^ 63)) as ->. { change (2 ^ 64) with (2 ^ 63 * 2). rewrite N.mul_mod_distr_r by discriminate. lia. }
  pose proof (N.div_mod' d (2 ^ 63)) as D. assert (d mod 2 ^ 63 < 2 ^ 63) as R by (apply N.mod_lt; discriminate).
  assert (N.lor (2 * (d mod 2 ^ 63)) lc = 2 * (d mod 2 ^ 63) + lc) as ->.
  { assert (lc = 0 \/ lc = 1) as [->| ->] by lia; destruct (d mod 2 ^ 63); reflexivity. }
  rewrite B_eq in *. change (2 ^ 64) with (2 * 2 ^ 63) in *. set (h := 2 ^ 63) in *. assert (0 < h) by reflexivity. clearbody h.
  assert (d / h <= 1). { assert (d / h < 2); [|lia]. apply N.div_lt_upper_bound; lia. } nia.
Qed.
Lemma shl1_ok : forall l lc, wd l -> lc <= 1 -> exists c, dv (shl1 l lc) + B ^ N.of_nat (length l) * c = 2 * dv l + lc /\ wd (shl1 l lc) /\ length (shl1 l lc) = length l.
Proof.
  induction l as [|d l IH]; intros lc W H; cbn [shl1].
  - exists lc. cbn [digits_val length]. change (N.of_nat 0) with 0. rewrite N.pow_0_r. repeat split; try lia. constructor.
  - apply Forall_cons_iff in W. destruct W as [Hd W]. destruct (shl1_digit d lc Hd H) as (E & L & C). destruct (IH (N.shiftr d 63) W C) as (c & V & Wr & Ln).
    exists c. cbn [digits_val length]. rewrite powB_S. split; [|split; [constructor; assumption|lia]].
    replace (N.lor (shlw 64 d 1) lc + B * dv (shl1 l (N.shiftr d 63)) + B * B ^ N.of_nat (length l) * c) with
      (N.lor (shlw 64 d 1) lc + B * (dv (shl1 l (N.shiftr d 63)) + B ^ N.of_nat (length l) * c)) by ring. rewrite V.
    replace (N.lor (shlw 64 d 1) lc + B * (2 * dv l + N.shiftr d 63)) with (N.lor (shlw 64 d 1) lc + B * N.shiftr d 63 + B * (2 * dv l)) by ring. rewrite E. ring.
Qed.
Lemma shl_iter : forall n l, wd l -> 2 ^ N.of_nat n * dv l < B ^ N.of_nat (length l) ->
  let r := Nat.iter n (fun l => shl1 l 0) l in dv r = 2 ^ N.of_nat n * dv l /\ wd r /\ length r = length l.
Proof.
  induction n as [|n IH]; intros l W H; cbv zeta; [cbn [Nat.iter nat_rect]; change (2 ^ N.of_nat 0) with 1; split; [lia|split; [exact W|reflexivity]]|].
  rewrite Nat2N.inj_succ, N.pow_succ_r' in *. destruct (IH l W) as (V & Wr & L); [lia|]. change (Nat.iter (S n) (fun l => shl1 l 0) l) with (shl1 (Nat.iter n (fun l => shl1 l 0) l) 0).
  set (r := Nat.iter n _ l) in *. destruct (shl1_ok r 0 Wr ltac:(lia)) as (c & E & W2 & L2). split; [|split; [exact W2|lia]].
  assert (c = 0) as ->; [|lia]. rewrite L in E. destruct (N.eq_dec c 0) as [|Hc]; [assumption|]. exfalso. rewrite V in E. assert (B ^ N.of_nat (length l) * 1 <= B ^ N.of_nat (length l) * c) by (apply N.mul_le_mono_l; lia). lia.
Qed.
Lemma powB_2 : forall n, B ^ N.of_nat n = 2 ^ N.of_nat (64 * n).
Proof. intro n. rewrite B_eq, <- N.pow_mul_r. f_equal. lia. Qed.
Lemma new_digits_ge : forall b, (b <= 64 * new_digits b)%nat.
Proof.
  intro b. unfold new_digits. pose proof (Nat.div_mod (b + 63) 64 ltac:(discriminate)) as D. pose proof (Nat.mod_upper_bound (b + 63) 64 ltac:(discriminate)). lia.
Qed.
Lemma new_digits_add : forall n b, (1 <= n)%nat -> new_digits (64 * n + b) = (n + (b + 63) / 64)%nat.
Proof. intros n b H. unfold new_digits. replace (64 * n + b + 63)%nat with (b + 63 + n * 64)%nat by lia. rewrite Nat.div_add by discriminate. lia. Qed.
Lemma mp_lsh_ok : forall a k, well_formed a -> well_formed (mp_lsh a k) /\ neg (mp_lsh a k) = neg a /\ magnitude (mp_lsh a k) = 2 ^ N.of_nat k * magnitude a /\
  size (mp_lsh a k) = (size a + (k + 63) / 64)%nat.
Proof.
  intros a k W. pose proof (wf_size _ W) as P. pose proof (mag_lt _ W) as U. apply wf1 in W. rewrite !mag in *. unfold mp_lsh, assign, new_mp.
  cbn [data neg]. assert (size (mkMp false (repeat 0 (new_digits (64 * size a + k)))) = new_digits (64 * size a + k)) as -> by apply repeat_length.
  rewrite new_digits_add by exact P. assert (size a <= size a + (k + 63) / 64)%nat as G by lia.
  replace (Nat.ltb (size a + (k + 63) / 64) (size a)) with false by (symmetry; apply Nat.ltb_ge; exact G).
  set (t := data a ++ repeat 0 _). assert (dv t = dv (data a)) as Vt by apply dv_pad. assert (wd t) as Wt by (apply wd_app; [apply W|apply wd_zeros]).
  assert (length t = size a + (k + 63) / 64)%nat as Lt by (unfold t; rewrite app_length, repeat_length; unfold size in *; lia).
  destruct (shl_iter k t Wt) as (V & W2 & L).
  { rewrite Vt, Lt. apply N.lt_le_trans with (2 ^ N.of_nat k * B ^ N.of_nat (size a)); [apply N.mul_lt_mono_pos_l; [apply N.neq_0_lt_0, N.pow_nonzero; discriminate|exact U]|].
    rewrite !powB_2, <- N.pow_add_r. apply N.pow_le_mono_r; [discriminate|]. pose proof (new_digits_ge (64 * size a + k)) as G2. rewrite new_digits_add in G2 by exact P. lia. }
  cbv zeta in *. cbn [neg data]. split; [|split; [reflexivity|split; [rewrite V, Vt; reflexivity|unfold size; cbn [data]; rewrite L; exact Lt]]].
  apply wf2. cbn [data]. split; [|exact W2]. intro E. rewrite E in L. cbn [length] in L. lia.
Qed.
Lemma shr1_ok : forall l, wd l -> let '(r, lc) := shr1 l in dv r = dv l / 2 /\ lc = dv l mod 2 /\ wd r /\ length r = length l.
Proof.
  induction l as [|d l IH]; intro W; cbn [shr1]; [repeat split; constructor|]. apply Forall_cons_iff in W. destruct W as [Hd W]. specialize (IH W). destruct (shr1 l) as [r lc].
  destruct IH as (V & C & Wr & L). cbn [digits_val length]. rewrite N.shiftr_div_pow2. change (2 ^ 1) with 2. change 1 with (N.ones 1). rewrite N.land_ones. change (2 ^ 1) with 2.
  assert (lc <= 1) as Hl. { rewrite C. assert (dv l mod 2 < 2) by (apply N.mod_lt; discriminate). lia. }
  assert (shlw 64 lc 63 = 2 ^ 63 * lc) as ->. { unfold shlw. rewrite N.shiftl_mul_pow2. rewrite N.mod_small; [lia|]. assert (lc = 0 \/ lc = 1) as [->| ->] by lia; reflexivity. }
  assert (d / 2 < 2 ^ 63) as Hh. { apply N.div_lt_upper_bound; [discriminate|]. rewrite B_eq in Hd. exact Hd. }
  assert (N.lor (d / 2) (2 ^ 63 * lc) = d / 2 + 2 ^ 63 * lc) as ->. { rewrite N.lor_comm. rewrite (N.mul_comm (2 ^ 63)), <- (N.shiftl_mul_pow2 lc 63). rewrite lor_add by exact Hh. rewrite N.shiftl_mul_pow2. lia. }
  pose proof (N.div_mod' (dv l) 2) as D1. pose proof (N.div_mod' d 2) as D2. assert (d mod 2 < 2) as R by (apply N.mod_lt; discriminate).
  assert (d + B * dv l = 2 * (d / 2 + 2 ^ 63 * lc + B * (dv l / 2)) + d mod 2) as E. { rewrite C. rewrite B_eq. change (2 ^ 64) with (2 * 2 ^ 63). set (h := 2 ^ 63). clearbody h. nia. }
  destruct (divmodW 2 (d + B * dv l) (d / 2 + 2 ^ 63 * lc + B * (dv l / 2)) (d mod 2) R E) as [-> ->]. rewrite V.
  split; [reflexivity|split; [reflexivity|split; [constructor; [|exact Wr]|lia]]].
  rewrite B_eq. change (2 ^ 64) with (2 ^ 63 + 2 ^ 63). assert (lc = 0 \/ lc = 1) as [->| ->] by lia; lia.
Qed.
Lemma or_last_0 : forall l, or_last l 0 = l.
Proof. induction l as [|d l IH]; [reflexivity|]. destruct l; [cbn [or_last]; rewrite N.lor_0_r; reflexivity|]. change (or_last (d :: n :: l) 0) with (d :: or_last (n :: l) 0). rewrite IH. reflexivity. Qed.
Lemma mp_rsh_ok : forall a k, well_formed a -> well_formed (mp_rsh a k) /\ neg (mp_rsh a k) = false /\ magnitude (mp_rsh a k) = magnitude a / 2 ^ N.of_nat k /\ size (mp_rsh a k) = size a.
Proof.
  intros a k W. pose proof (wf_size _ W) as P. apply wf1 in W. rewrite !mag. unfold mp_rsh, mp_rsh_op, size. cbn [data neg].
  assert (forall l, or_last (fst (shr1 l)) 0 = fst (shr1 l)) as OL by (intro; apply or_last_0).
  assert (let r := Nat.iter k (fun l => or_last (fst (shr1 l)) 0) (data a) in dv r = dv (data a) / 2 ^ N.of_nat k /\ wd r /\ length r = length (data a)) as (V & Wr & L).
  { clear - W OL. induction k as [|k IH]; [cbn [Nat.iter nat_rect]; change (2 ^ N.of_nat 0) with 1; rewrite N.div_1_r; split; [reflexivity|split; [apply W|reflexivity]]|]. cbv zeta in *.
    change (Nat.iter (S k) (fun l => or_last (fst (shr1 l)) 0) (data a)) with (or_last (fst (shr1 (Nat.iter k (fun l => or_last (fst (shr1 l)) 0) (data a)))) 0).
    rewrite OL. set (r := Nat.iter k _ _) in *. destruct IH as (V & Wr & L). pose proof (shr1_ok r Wr) as R. destruct (shr1 r) as [r' lc]. destruct R as (V2 & _ & W2 & L2). cbn [fst].
    split; [|split; [exact W2|lia]]. rewrite V2, V, N.div_div by (try apply N.pow_nonzero; discriminate). f_equal. rewrite Nat2N.inj_succ, N.pow_succ_r'. lia. }
  cbv zeta in *. split; [|split; [reflexivity|split; assumption]]. apply wf2. cbn [data]. split; [|exact Wr]. intro E. rewrite E in L. unfold size in P. cbn [length] in L. lia.
Qed.
Lemma set_last_app : forall r v w, set_last (r ++ [v]) w = r ++ [w].
Proof. induction r as [|d r IH]; intros v w; [reflexivity|]. cbn [app]. destruct (r ++ [v]) eqn:E; [destruct r; discriminate|]. change (d :: set_last (n :: l) w = d :: r ++ [w]). rewrite <- E, IH. reflexivity. Qed.
Lemma mul_digit_ok : forall x d, well_formed x -> neg x = false -> d < B ->
  well_formed (mul_digit x d) /\ neg (mul_digit x d) = false /\ magnitude (mul_digit x d) = magnitude x * d.
Proof.
  intros x d W Nx Hd. pose proof (wf_size _ W) as P. apply wf1 in W. rewrite !mag. unfold mul_digit. pose proof (mul_digit_loop_ok (data x) d 0 (proj2 W) Hd B_pos) as M.
  destruct (mul_digit_loop (data x) d 0) as [r mc]. destruct M as (V & Wr & L & Hm). rewrite N.add_0_r in V.
  assert (r <> []) as Nr by (intro E; rewrite E in L; unfold size in P; cbn [length] in L; lia).
  destruct (N.ltb_spec 0 mc) as [C|C].
  - assert (well_formed (mkMp (neg x) r)) as W1 by (apply wf2; split; assumption).
    destruct (mp_lsh_ok (mkMp (neg x) r) 64 W1) as (L1 & L2 & L3 & L4). destruct (mp_rsh_ok (mp_lsh (mkMp (neg x) r) 64) 64 L1) as (R1 & R2 & R3 & R4).
    set (y := mp_rsh _ 64) in *. assert (data y = r ++ [0]) as E.
    { apply dv_inj; [apply wf1 in R1; apply R1|apply wd_app; [exact Wr|repeat constructor; apply B_pos]| |].
      - change (length (data y)) with (size y). rewrite R4, L4. rewrite app_length. reflexivity.
      - rewrite <- mag, R3, L3, mag. cbn [data]. rewrite N.mul_comm, N.div_mul by (apply N.pow_nonzero; discriminate). change [0] with (repeat 0 1). rewrite dv_pad. reflexivity. }
    rewrite E, set_last_app. cbn [data neg]. split; [apply wf2; cbn [data]; split; [destruct r; discriminate|apply wd_app; [exact Wr|repeat constructor; exact Hm]]|].
    split; [exact R2|]. rewrite dv_app, L. cbn [digits_val]. lia.
  - assert (mc = 0) as -> by lia. cbn [data neg]. split; [apply wf2; split; assumption|]. split; [exact Nx|]. lia.
Qed.

(* ---- comparison *)
Lemma eqd_eq : forall a b, eqd a b = true <-> a = b.
Proof.
  induction a as [|x a IH]; intros [|y b]; cbn [eqd]; try (split; congruence). rewrite andb_true_iff, IH, N.eqb_eq. split; [intros [-> ->]; reflexivity|intro H; injection H; auto].
Qed.
Lemma all_zero_dv : forall l, forallb (fun d => d =? 0) l = true <-> dv l = 0.
Proof. intro l. apply (is_zero_dv (mkMp false l)). Qed.
Lemma split_dv : forall l n, (n <= length l)%nat -> dv l = dv (firstn n l) + B ^ N.of_nat n * dv (skipn n l).
Proof. intros l n H. rewrite <- (firstn_skipn n l) at 1. rewrite dv_app, firstn_length, Nat.min_l by exact H. reflexivity. Qed.
Lemma wd_firstn : forall n l, wd l -> wd (firstn n l).
Proof. intros n l H. rewrite <- (firstn_skipn n l) in H. apply Forall_app in H. apply H. Qed.
Lemma wd_skipn : forall n l, wd l -> wd (skipn n l).
Proof. intros n l H. rewrite <- (firstn_skipn n l) in H. apply Forall_app in H. apply H. Qed.
Lemma mp_eq_ok : forall a b, well_formed a -> well_formed b -> mp_eq a b = (Bool.eqb (neg a) (neg b) && (magnitude a =? magnitude b))%bool.
Proof.
  intros a b Wa Wb. apply wf1 in Wa. apply wf1 in Wb. rewrite !mag. unfold mp_eq. destruct (Bool.eqb (neg a) (neg b)); [|reflexivity]. cbn [andb]. destruct (Nat.eqb_spec (size a) (size b)) as [E|E].
  - apply eq_true_iff_eq. rewrite eqd_eq, N.eqb_eq. split; [intros ->; reflexivity|]. apply dv_inj; [apply Wa|apply Wb|exact E].
  - pose proof (max_min_ok a b) as M. destruct (max_min a b) as [x y]. destruct M as [L M].
    assert (wd (data x) /\ wd (data y)) as [Wx Wy] by (destruct M as [[-> ->]|[-> ->]]; split; (apply Wa || apply Wb)).
    assert ((dv (data a) =? dv (data b)) = (dv (data x) =? dv (data y))) as -> by (destruct M as [[-> ->]|[-> ->]]; [reflexivity|apply N.eqb_sym]).
    apply eq_true_iff_eq. rewrite andb_true_iff, eqd_eq, N.eqb_eq, all_zero_dv. rewrite (split_dv (data x) (size y) L). pose proof (dv_lt _ Wy) as U. fold (size y) in U.
    assert (length (firstn (size y) (data x)) = size y) as Lf by (apply firstn_length_le; exact L). split.
    + intros [-> ->]. lia.
    + intro V. assert (dv (skipn (size y) (data x)) = 0) as Z. { destruct (N.eq_dec (dv (skipn (size y) (data x))) 0); [assumption|]. assert (B ^ N.of_nat (size y) * 1 <= B ^ N.of_nat (size y) * dv (skipn (size y) (data x))) by (apply N.mul_le_mono_l; lia). lia. }
      split; [exact Z|]. apply dv_inj; [apply wd_firstn, Wx|exact Wy|exact Lf|]. rewrite Z in V. lia.
Qed.
Lemma bitcmp_ok : forall n x y, bitcmp n x y = (x mod 2 ^ N.of_nat n ?= y mod 2 ^ N.of_nat n).
Proof.
  induction n as [|n IH]; intros x y; cbn [bitcmp]; [change (2 ^ N.of_nat 0) with 1; rewrite !N.mod_1_r; reflexivity|].
  assert (forall z, z mod 2 ^ N.of_nat (S n) = (if N.testbit z (N.of_nat n) then 2 ^ N.of_nat n else 0) + z mod 2 ^ N.of_nat n) as H.
  { intro z. rewrite Nat2N.inj_succ, N.pow_succ_r', (N.mul_comm 2). rewrite N.mod_mul_r by (try apply N.pow_nonzero; discriminate).
    rewrite <- N.testbit_spec' with (a := z) (n := N.of_nat n). destruct (N.testbit z (N.of_nat n)); cbn [N.b2n]; lia. }
  rewrite !H, IH. assert (forall z, z mod 2 ^ N.of_nat n < 2 ^ N.of_nat n) as U by (intro; apply N.mod_lt, N.pow_nonzero; discriminate). pose proof (U x). pose proof (U y).
  destruct (N.testbit x (N.of_nat n)), (N.testbit y (N.of_nat n)).
  - symmetry. destruct (N.compare_spec (x mod 2 ^ N.of_nat n) (y mod 2 ^ N.of_nat n)); [apply N.compare_eq_iff|apply N.compare_lt_iff|apply N.compare_gt_iff]; lia.
  - symmetry. apply N.compare_gt_iff. lia.
  - symmetry. apply N.compare_lt_iff. lia.
  - reflexivity.
Qed.
Lemma digcmp_ok : forall a b, wd a -> wd b -> length a = length b -> digcmp a b = (dv a ?= dv b).
Proof.
  induction a as [|x a IH]; intros [|y b] Wa Wb L; cbn [length] in L; try discriminate; [reflexivity|]. apply Forall_cons_iff in Wa. destruct Wa as [Hx Wa]. apply Forall_cons_iff in Wb. destruct Wb as [Hy Wb].
  cbn [digcmp digits_val]. rewrite (IH b Wa Wb) by lia. rewrite bitcmp_ok. change (2 ^ N.of_nat 64) with (2 ^ 64). rewrite <- B_eq, !N.mod_small by assumption.
  destruct (N.compare_spec (dv a) (dv b)) as [E|E|E].
  - rewrite E. symmetry. destruct (N.compare_spec x y); [apply N.compare_eq_iff|apply N.compare_lt_iff|apply N.compare_gt_iff]; lia.
  - symmetry. apply N.compare_lt_iff. assert (B * (dv a + 1) <= B * dv b) by (apply N.mul_le_mono_l; lia). lia.
  - symmetry. apply N.compare_gt_iff. assert (B * (dv b + 1) <= B * dv a) by (apply N.mul_le_mono_l; lia). lia.
Qed.
Lemma get_gt_ok : forall a b, well_formed a -> well_formed b -> neg a = neg b -> get_gt a b = (magnitude a ?= magnitude b).
Proof.
  intros a b Wa Wb E. apply wf1 in Wa. apply wf1 in Wb. rewrite !mag. unfold get_gt. rewrite E, Bool.eqb_reflx. cbn [negb]. rewrite andb_false_r, andb_false_l.
  unfold max_min. destruct (Nat.leb_spec (size b) (size a)) as [L|L].
  - destruct (forallb _ _) eqn:Z.
    + apply all_zero_dv in Z. rewrite (split_dv (data a) (size b) L), Z. rewrite digcmp_ok; [f_equal; lia|apply wd_firstn, Wa|apply Wb|apply firstn_length_le; exact L].
    + symmetry. apply N.compare_gt_iff. apply not_true_iff_false in Z. rewrite all_zero_dv in Z. rewrite (split_dv (data a) (size b) L). pose proof (dv_lt _ (proj2 Wb)) as U. fold (size b) in U.
      assert (B ^ N.of_nat (size b) * 1 <= B ^ N.of_nat (size b) * dv (skipn (size b) (data a))) by (apply N.mul_le_mono_l; lia). lia.
  - assert (size a <= size b)%nat as L' by lia. rewrite (N.compare_antisym (dv (data b)) (dv (data a))). destruct (forallb _ _) eqn:Z; f_equal.
    + apply all_zero_dv in Z. rewrite (split_dv (data b) (size a) L'), Z. rewrite digcmp_ok; [f_equal; lia|apply wd_firstn, Wb|apply Wa|apply firstn_length_le; exact L'].
    + symmetry. apply N.compare_gt_iff. apply not_true_iff_false in Z. rewrite all_zero_dv in Z. rewrite (split_dv (data b) (size a) L'). pose proof (dv_lt _ (proj2 Wa)) as U. fold (size a) in U.
      assert (B ^ N.of_nat (size a) * 1 <= B ^ N.of_nat (size a) * dv (skipn (size a) (data b))) by (apply N.mul_le_mono_l; lia). lia.
Qed.
Lemma mp_gt_ok : forall a b, well_formed a -> well_formed b -> neg a = neg b -> mp_gt a b = (magnitude b <? magnitude a).
Proof.
  intros a b Wa Wb E. unfold mp_gt, mp_ne. rewrite mp_eq_ok, get_gt_ok by assumption. rewrite E, Bool.eqb_reflx. cbn [andb].
  destruct (N.compare_spec (magnitude a) (magnitude b)); destruct (N.eqb_spec (magnitude a) (magnitude b)); cbn [negb andb]; symmetry; (apply N.ltb_lt || apply N.ltb_ge); lia.
Qed.
Lemma mp_lt_ok : forall a b, well_formed a -> well_formed b -> neg a = neg b -> mp_lt a b = (magnitude a <? magnitude b).
Proof. intros. apply mp_gt_ok; congruence. Qed.
Lemma mp_ge_ok : forall a b, well_formed a -> well_formed b -> neg a = neg b -> mp_ge a b = (magnitude b <=? magnitude a).
Proof.
  intros a b Wa Wb E. unfold mp_ge. rewrite mp_eq_ok, get_gt_ok by assumption. rewrite E, Bool.eqb_reflx. cbn [andb].
  destruct (N.compare_spec (magnitude a) (magnitude b)); destruct (N.eqb_spec (magnitude a) (magnitude b)); cbn [orb]; symmetry; (apply N.leb_le || apply N.leb_gt); lia.
Qed.
Lemma mp_le_ok : forall a b, well_formed a -> well_formed b -> neg a = neg b -> mp_le a b = (magnitude a <=? magnitude b).
Proof.
  intros a b Wa Wb E. unfold mp_le. rewrite mp_eq_ok, get_gt_ok by assumption. rewrite E, Bool.eqb_reflx. cbn [andb].
  destruct (N.compare_spec (magnitude a) (magnitude b)); destruct (N.eqb_spec (magnitude a) (magnitude b)); cbn [orb]; symmetry; (apply N.leb_le || apply N.leb_gt); lia.
Qed.
