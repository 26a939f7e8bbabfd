From Verif Require Import Words MpModel MpModel2 MpSpec MpProofs MpProofs2 MpProofs3 MpProofs4 MpProofs5 MpProofs6 EcModel EcSpec EcMeaning.
From Coq Require Import Znumtheory Lia.
Open Scope Z_scope.

(* ---- the chord and tangent law *)
Lemma mod_div_iff : forall p x y, 0 < p -> (x mod p = y mod p <-> (p | x - y)).
Proof.
  intros p x y H. split; intro E.
  - apply Z.mod_divide; [lia|]. rewrite Zminus_mod, E, Z.sub_diag. apply Z.mod_0_l. lia.
  - destruct E as [k E]. replace x with (y + k * p) by lia. apply Z.mod_add. lia.
Qed.
Lemma mod_zero_iff : forall p x, 0 < p -> (x mod p = 0 <-> (p | x)).
Proof. intros p x H. rewrite <- (Z.mod_0_l p) at 1 by lia. rewrite mod_div_iff by exact H. rewrite Z.sub_0_r. reflexivity. Qed.
Lemma small_div : forall p x, 0 < p -> - p < x < p -> (p | x) -> x = 0.
Proof. intros p x H B [k E]. assert (k = 0) by nia. subst. lia. Qed.
Lemma mod_rep : forall p x, 0 < p -> (p | x mod p - x). Proof. intros p x H. apply mod_div_iff; [exact H|]. apply Z.mod_mod. lia. Qed.
(* x3, y3 as exact values modulo multiples of p *)
Lemma mod_ex : forall p x, 0 < p -> exists k, x mod p = x + k * p.
Proof. intros p x H. destruct (mod_rep p x H) as [k E]. exists k. lia. Qed.
Lemma div_lin : forall p u v w t, (p | u) -> (p | v) -> (p | u * w + v * t).
Proof. intros. apply Z.divide_add_r; apply Z.divide_mul_l; assumption. Qed.
Section Law.
Context (p a b : Z) (Pp : prime p) (Od : p <> 2).
Lemma p_gt : 2 < p. Proof. destruct Pp as [H _]. lia. Qed.
Lemma chord_on : forall s x1 y1 x2 y2, on_curve p a b (Aff x1 y1) -> on_curve p a b (Aff x2 y2) -> x1 <> x2 -> (s * (x1 - x2)) mod p = (y1 - y2) mod p ->
  let x3 := (s * s - x1 - x2) mod p in on_curve p a b (Aff x3 ((s * (x1 - x3) - y1) mod p)).
Proof.
  intros s x1 y1 x2 y2 (B1 & _ & C1) (B2 & _ & C2) N Sl x3. pose proof p_gt as G. assert (0 < p) as P0 by lia. split; [apply Z.mod_pos_bound; exact P0|]. split; [apply Z.mod_pos_bound; exact P0|].
  apply mod_div_iff in C1; [|exact P0]. apply mod_div_iff in C2; [|exact P0]. apply mod_div_iff in Sl; [|exact P0]. apply mod_div_iff; [exact P0|].
  destruct (mod_ex p (s * s - x1 - x2) P0) as [k3 E3]. fold x3 in E3. clearbody x3. destruct (mod_ex p (s * (x1 - x3) - y1) P0) as [k4 E4]. rewrite E4. clear E4.
  destruct C1 as [k1 C1]. destruct C2 as [k2 C2]. destruct Sl as [k5 Sl].
  assert ((p | (x1 - x2) * ((s * (x1 - x3) - y1) * (s * (x1 - x3) - y1) - (x3 * x3 * x3 + a * x3 + b)))) as D.
  { assert (y1 = s * (x1 - x2) + y2 - k5 * p) as Y by lia.
    assert (b = y1 * y1 - (x1 * x1 * x1 + a * x1) - k1 * p) as Bq by lia.
    set (y2' := y2 - k5 * p) in *. assert (y1 = s * (x1 - x2) + y2') as Y1 by (unfold y2'; lia).
    assert ((p | y2' * y2' - (x2 * x2 * x2 + a * x2 + b))) as F2.
    { exists (k2 - 2 * y2 * k5 + k5 * k5 * p). unfold y2'. transitivity (y2 * y2 - (x2 * x2 * x2 + a * x2 + b) - 2 * y2 * k5 * p + k5 * k5 * p * p); [ring|]. rewrite C2. ring. }
    assert ((p | y1 * y1 - (x1 * x1 * x1 + a * x1 + b))) as F1 by (exists k1; exact C1).
    assert ((p | s * s - x1 - x2 - x3)) as F3 by (exists (- k3); lia).
    clear C1 C2 Bq Y E3. clearbody y2'.
    replace ((x1 - x2) * ((s * (x1 - x3) - y1) * (s * (x1 - x3) - y1) - (x3 * x3 * x3 + a * x3 + b)))
      with ((y1 * y1 - (x1 * x1 * x1 + a * x1 + b)) * (x3 - x2) + (y2' * y2' - (x2 * x2 * x2 + a * x2 + b)) * (x1 - x3) + (s * s - x1 - x2 - x3) * ((x1 - x2) * (x1 - x3) * (x2 - x3))) by (subst y1; ring).
    apply Z.divide_add_r; [|apply Z.divide_mul_l; exact F3]. apply div_lin; assumption. }
  apply prime_mult in D; [|exact Pp]. destruct D as [D|D]; [exfalso; apply N; apply small_div in D; lia|].
  destruct D as [k D]. exists (k + 2 * (s * (x1 - x3) - y1) * k4 + k4 * k4 * p). transitivity ((s * (x1 - x3) - y1) * (s * (x1 - x3) - y1) - (x3 * x3 * x3 + a * x3 + b) + (2 * (s * (x1 - x3) - y1) * k4 + k4 * k4 * p) * p); [ring|]. rewrite D. ring.
Qed.
Lemma tangent_on : forall s x y, on_curve p a b (Aff x y) -> y <> 0 -> (s * (2 * y)) mod p = (3 * x * x + a) mod p ->
  let x3 := (s * s - x - x) mod p in on_curve p a b (Aff x3 ((s * (x - x3) - y) mod p)).
Proof.
  intros s x y (B1 & _ & C1) N Sl x3. pose proof p_gt as G. assert (0 < p) as P0 by lia. split; [apply Z.mod_pos_bound; exact P0|]. split; [apply Z.mod_pos_bound; exact P0|].
  apply mod_div_iff in C1; [|exact P0]. apply mod_div_iff in Sl; [|exact P0]. apply mod_div_iff; [exact P0|].
  destruct (mod_ex p (s * s - x - x) P0) as [k3 E3]. fold x3 in E3. clearbody x3. destruct (mod_ex p (s * (x - x3) - y) P0) as [k4 E4]. rewrite E4. clear E4.
  assert ((p | s * s - x - x - x3)) as F3 by (exists (- k3); lia). clear E3.
  assert ((p | (s * (x - x3) - y) * (s * (x - x3) - y) - (x3 * x3 * x3 + a * x3 + b))) as D.
  { replace ((s * (x - x3) - y) * (s * (x - x3) - y) - (x3 * x3 * x3 + a * x3 + b))
      with ((y * y - (x * x * x + a * x + b)) * 1 + (s * (2 * y) - (3 * x * x + a)) * (x3 - x) + (s * s - x - x - x3) * ((x - x3) * (x - x3))) by ring.
    apply Z.divide_add_r; [|apply Z.divide_mul_l; exact F3]. apply div_lin; assumption. }
  destruct D as [k D]. exists (k + 2 * (s * (x - x3) - y) * k4 + k4 * k4 * p). transitivity ((s * (x - x3) - y) * (s * (x - x3) - y) - (x3 * x3 * x3 + a * x3 + b) + (2 * (s * (x - x3) - y) * k4 + k4 * k4 * p) * p); [ring|]. rewrite D. ring.
Qed.
Lemma sum_on : forall P Q R, on_curve p a b P -> on_curve p a b Q -> sum p a P Q R -> on_curve p a b R.
Proof.
  intros P Q R HP HQ H. destruct H as [Q|P|x y1 y2 E|s x1 y1 x2 y2 x3 y3 N Sl E3 E4|s x y x3 y3 N Sl E3 E4]; try assumption; [exact I| |].
  - subst. exact (chord_on s x1 y1 x2 y2 HP HQ N Sl).
  - subst. exact (tangent_on s x y HP N Sl).
Qed.
Lemma same_x : forall x y1 y2, on_curve p a b (Aff x y1) -> on_curve p a b (Aff x y2) -> (y1 + y2) mod p = 0 \/ y1 = y2.
Proof.
  intros x y1 y2 (_ & B1 & C1) (_ & B2 & C2). pose proof p_gt as G. assert (0 < p) as P0 by lia. rewrite <- C2 in C1. apply mod_div_iff in C1; [|exact P0].
  replace (y1 * y1 - y2 * y2) with ((y1 + y2) * (y1 - y2)) in C1 by ring. apply prime_mult in C1; [|exact Pp]. destruct C1 as [D|D]; [left; apply mod_zero_iff; [lia|exact D]|right]. apply small_div in D; lia.
Qed.
(* the slope is determined *)
Lemma cancel : forall u v w, ~ (p | w) -> (u * w) mod p = (v * w) mod p -> u mod p = v mod p.
Proof.
  intros u v w N E. pose proof p_gt as G. apply mod_div_iff in E; [|lia]. apply mod_div_iff; [lia|]. replace (u * w - v * w) with ((u - v) * w) in E by ring. apply prime_mult in E; [|exact Pp]. tauto.
Qed.
Lemma sq_mod : forall s t x y, s mod p = t mod p -> (s * s - x - y) mod p = (t * t - x - y) mod p.
Proof.
  intros s t x y E. pose proof p_gt as G. apply mod_div_iff in E; [|lia]. apply mod_div_iff; [lia|]. replace (s * s - x - y - (t * t - x - y)) with ((s - t) * (s + t)) by ring. apply Z.divide_mul_l. exact E.
Qed.
Lemma ln_mod : forall s t x y, s mod p = t mod p -> (s * x - y) mod p = (t * x - y) mod p.
Proof.
  intros s t x y E. pose proof p_gt as G. apply mod_div_iff in E; [|lia]. apply mod_div_iff; [lia|]. replace (s * x - y - (t * x - y)) with ((s - t) * x) by ring. apply Z.divide_mul_l. exact E.
Qed.
Lemma sum_unique : forall P Q R S, on_curve p a b P -> on_curve p a b Q -> sum p a P Q R -> sum p a P Q S -> R = S.
Proof.
  intros P Q R S HP HQ H1 H2. pose proof p_gt as G. assert (0 < p) as P0 by lia.
  assert (forall x y, on_curve p a b (Aff x y) -> y <> 0 -> (y + y) mod p <> 0) as NZ.
  { intros x y (_ & B1 & _) N E. apply mod_zero_iff in E; [|exact P0]. replace (y + y) with (2 * y) in E by ring. apply prime_mult in E; [|exact Pp]. destruct E as [E|E]; apply small_div in E; lia. }
  destruct H1 as [Q|P|x y1 y2 E|s x1 y1 x2 y2 x3 y3 N Sl E3 E4|s x y x3 y3 N Sl E3 E4]; inversion H2; subst; try reflexivity; try congruence.
  - exfalso. exact (NZ _ _ HP ltac:(assumption) E).
  - assert (s mod p = s0 mod p) as Es.
    { apply (cancel s s0 (x1 - x2)); [|congruence]. intro D. apply small_div in D; [lia|lia|]. destruct HP as (? & _ & _), HQ as (? & _ & _). lia. }
    rewrite (sq_mod _ _ x1 x2 Es). f_equal. apply ln_mod. exact Es.
  - exfalso. apply (NZ _ _ HP N). assumption.
  - assert (s mod p = s0 mod p) as Es.
    { apply (cancel s s0 (2 * y)); [|congruence]. intro D. apply prime_mult in D; [|exact Pp]. destruct HP as (_ & ? & _). destruct D as [D|D]; apply small_div in D; lia. }
    rewrite (sq_mod _ _ x x Es). f_equal. apply ln_mod. exact Es.
Qed.
End Law.

(* ---- the code *)
Lemma val_pos : forall a, pos a -> value a = Z.of_N (magnitude a). Proof. intros a [_ H]. unfold value. rewrite H. reflexivity. Qed.
Lemma pos_normal : forall a, pos a -> normal a. Proof. intros a [W H]. split; [exact W|]. rewrite H. discriminate. Qed.
Lemma num_val : forall d, value (num d) = Z.of_N d. Proof. intro d. unfold value. cbn [neg num]. fold (num d). rewrite mag_num. reflexivity. Qed.
Lemma num_pos : forall d, (d < 10)%N -> pos (num d). Proof. intros d H. apply pos_num. eapply N.lt_trans; [exact H|reflexivity]. Qed.
Lemma eq_val : forall a b, pos a -> pos b -> mp_eq a b = (value a =? value b).
Proof. intros a b Pa Pb. rewrite eq_pos, !val_pos by assumption. destruct (N.eqb_spec (magnitude a) (magnitude b)); destruct (Z.eqb_spec (Z.of_N (magnitude a)) (Z.of_N (magnitude b))); lia || reflexivity. Qed.
Section Curve.
Context (c : curve) (Sc : small_curve c) (fuel : nat) (F : (N.to_nat (3 * magnitude (cp c)) + 1 <= fuel)%nat).
Notation p := (value (cp c)). Notation a := (value (ca c)). Notation b := (value (cb c)).
Lemma Pcp : pos (cp c). Proof. destruct Sc as (W & Ng & _). split; assumption. Qed.
Lemma Prm : prime p. Proof. apply Sc. Qed.
Lemma P2 : p <> 2. Proof. apply Sc. Qed.
Lemma P3 : 2 < p. Proof. apply p_gt; [apply Prm|apply P2]. Qed.
Lemma Bn : b mod p <> 0. Proof. apply Sc. Qed.
Lemma red_ok : forall x, well_formed x -> exists r, red x (cp c) = Done (Some r) /\ pos r /\ value r = value x mod p.
Proof.
  intros x W. destruct Sc as (Wp & Ng & L1 & _). pose proof P3 as G. assert (magnitude (cp c) <> 0%N) as M0. { intro E. rewrite (val_pos _ Pcp), E in G. cbn in G. lia. }
  destruct (barrett_exact x (cp c) W Wp Ng M0) as (r & E & Wr & Nr & _ & V). exists r. split; [exact E|]. split; [split; assumption|]. apply V. right. exact L1.
Qed.
Lemma odd_p : N.odd (magnitude (cp c)) = true.
Proof.
  pose proof P3 as G. destruct (N.odd (magnitude (cp c))) eqn:E; [reflexivity|]. exfalso. assert (N.even (magnitude (cp c)) = true) as Ev by (rewrite <- N.negb_odd, E; reflexivity). apply N.even_spec in Ev. destruct Ev as [k Ev].
  assert ((2 | p)) as D by (exists (Z.of_N k); rewrite (val_pos _ Pcp), Ev; lia). destruct (prime_divisors p Prm 2 D) as [H|[H|[H|H]]]; lia.
Qed.
Lemma inv_ok : forall x, pos x -> value x < 2 * p -> value x mod p <> 0 -> exists r, modinv_rs fuel x (cp c) = Done (Some r) /\ pos r /\ (value r * value x) mod p = 1.
Proof.
  intros x Px L N. pose proof P3 as G. pose proof (val_pos _ Pcp) as Vp. pose proof (val_pos _ Px) as Vx.
  destruct (modinv_rs_ok x (cp c) fuel Px Pcp odd_p) as (r & E & Pr & _ & C & _); [clear - F L Vp Vx; lia|]. exists r. split; [exact E|]. split; [exact Pr|].
  assert (N.gcd (magnitude x) (magnitude (cp c)) = 1%N) as Gc.
  { assert ((Z.of_N (N.gcd (magnitude x) (magnitude (cp c))) | p)) as D1. { rewrite Vp. destruct (N.gcd_divide_r (magnitude x) (magnitude (cp c))) as [k K]. exists (Z.of_N k). rewrite K at 1. apply N2Z.inj_mul. }
    assert ((Z.of_N (N.gcd (magnitude x) (magnitude (cp c))) | value x)) as D2. { rewrite Vx. destruct (N.gcd_divide_l (magnitude x) (magnitude (cp c))) as [k K]. exists (Z.of_N k). rewrite K at 1. apply N2Z.inj_mul. }
    destruct (prime_divisors p Prm _ D1) as [H|[H|[H|H]]]; [lia|lia| |lia]. exfalso. apply N. apply mod_zero_iff; [lia|]. rewrite <- H. exact D2. }
  specialize (C Gc). apply (f_equal Z.of_N) in C. rewrite !N2Z.inj_mod, N2Z.inj_mul, <- Vp, <- Vx, <- (val_pos _ Pr) in C. rewrite C. change (Z.of_N 1) with 1. apply Z.mod_1_l. lia.
Qed.
Lemma stands_pos : forall m P, stands m P -> pos (px m) /\ pos (py m). Proof. intros m P (H1 & H2 & H3 & H4 & _). repeat split; assumption || apply H1 || apply H2. Qed.
Ltac subok x y := let r := fresh "r" in let E := fresh "E" in let Nr := fresh "Nr" in let V := fresh "V" in destruct (sub_s_ok x y) as (r & E & Nr & V); [..|unfold osub at 1; rewrite E; cbn [obind]].
Ltac redok x := let r := fresh "t" in let E := fresh "E" in let Nr := fresh "Pt" in let V := fresh "V" in destruct (red_ok x) as (r & E & Nr & V); [..|unfold odo at 1; rewrite E; cbn [obind]].

Lemma dbl_ok : forall m P, stands m P -> on_curve p a b P -> exists r R, ec_dbl fuel m c = Done (Some r) /\ stands r R /\ on_curve p a b R /\ sum p a P P R.
Proof.
  intros m P St On. pose proof P3 as G. destruct (stands_pos m P St) as [Qx Qy]. unfold ec_dbl. rewrite (eq_val _ _ Qy (num_pos 0 ltac:(lia))), num_val. change (Z.of_N 0) with 0.
  assert (exists r, Done (Some (mkPt (num 0) (num 0))) = Done (Some r) /\ stands r Inf) as Z0.
  { eexists. split; [reflexivity|]. destruct (num_pos 0 ltac:(lia)). cbn [px py]. repeat split; try assumption; try apply H; cbn [px py]; apply num_val. }
  destruct (Z.eqb_spec (value (py m)) 0) as [Y0|Y0].
  - destruct Z0 as (r & E & S0). exists r, Inf. split; [exact E|]. split; [exact S0|]. split; [exact I|]. destruct P as [|x y]; [constructor|]. destruct St as (_ & _ & _ & _ & Ex & Ey). apply sum_opposite. rewrite <- Ey, Y0. apply Z.mod_0_l. lia.
  - destruct P as [|x y]; [destruct St as (_ & _ & _ & _ & Ex & Ey); contradiction|]. pose proof On as (Bx & By & Cu). destruct St as (_ & _ & _ & _ & Ex & Ey).
    destruct (mul_s_ok (num 2) (py m) (pos_normal _ (num_pos 2 ltac:(lia))) (pos_normal _ Qy)) as [N2 V2]. rewrite num_val in V2.
    assert (pos (mul_s (num 2) (py m))) as P2y. { split; [apply N2|]. unfold value in V2 at 1. destruct (neg (mul_s (num 2) (py m))) eqn:Ng; [|reflexivity]. exfalso. destruct N2 as [_ N2]. specialize (N2 Ng). change (Z.of_N 2) with 2 in V2. lia. }
    destruct (inv_ok _ P2y) as (i & Ei & Pi & Vi); [rewrite V2; change (Z.of_N 2) with 2; lia| |].
    { rewrite V2. change (Z.of_N 2) with 2. intro D. apply mod_zero_iff in D; [|lia]. apply prime_mult in D; [|apply Prm]. destruct D as [D|D]; apply small_div in D; lia. }
    unfold odo at 1. rewrite Ei. cbn [obind]. rewrite !(assign_pos _ Qx).
    destruct (mul_s_ok (px m) (px m) (pos_normal _ Qx) (pos_normal _ Qx)) as [Nxx Vxx].
    destruct (mul_s_ok (num 3) _ (pos_normal _ (num_pos 3 ltac:(lia))) Nxx) as [N3 V3]. rewrite num_val, Vxx in V3.
    destruct (add_s_ok _ (ca c) N3) as (sl & Es & Ns & Vs); [apply Sc|]. unfold oadd at 1. rewrite Es. cbn [obind]. rewrite V3 in Vs.
    destruct (mul_s_ok sl i Ns (pos_normal _ Pi)) as [Nsi Vsi]. rewrite Vs in Vsi. redok (mul_s sl i); [apply Nsi|]. rewrite Vsi in V. rename t into s, V into Vsl, Pt into Psl. rewrite !(assign_pos _ Psl).
    destruct (mul_s_ok s s (pos_normal _ Psl) (pos_normal _ Psl)) as [Nss Vss]. subok (mul_s s s) (px m); [exact Nss|apply pos_normal, Qx|]. rewrite Vss in V. subok r (px m); [assumption|apply pos_normal, Qx|]. rewrite V in V0. redok r0; [apply Nr0|]. rewrite V0 in V1. rename t into x3, V1 into V3x.
    subok (px m) x3; [apply pos_normal, Qx|apply pos_normal; assumption|]. destruct (mul_s_ok s r1 (pos_normal _ Psl) ltac:(assumption)) as [Nsr Vsr]. rewrite V1 in Vsr. subok (mul_s s r1) (py m); [exact Nsr|apply pos_normal, Qy|]. rewrite Vsr in V4. redok r2; [apply Nr2|]. rewrite V4 in V5.
    assert (sum p a (Aff x y) (Aff x y) (Aff (value x3) (value t))) as Sm.
    { apply (sum_tangent p a (value s)); [rewrite <- Ey; exact Y0| |rewrite <- Ex; exact V3x|rewrite <- Ex, <- Ey; exact V5].
      apply mod_div_iff; [lia|]. rewrite V2, Ey in Vi. change (Z.of_N 2) with 2 in Vi. change (Z.of_N 3) with 3 in Vsl. rewrite Ex in Vsl. destruct (mod_ex p ((3 * (x * x) + a) * value i) ltac:(lia)) as [k Ek]. rewrite Vsl, Ek.
      assert (1 mod p = 1) as O1 by (apply Z.mod_1_l; lia). rewrite <- O1 in Vi. apply mod_div_iff in Vi; [|lia]. destruct Vi as [j Vi].
      exists ((3 * (x * x) + a) * j + k * (2 * y)). transitivity ((3 * (x * x) + a) * (value i * (2 * y) - 1) + k * (2 * y) * p); [ring|]. rewrite Vi. ring. }
    exists (mkPt x3 t), (Aff (value x3) (value t)). split; [reflexivity|]. split; [|split; [eapply sum_on; [apply Prm|apply P2|exact On|exact On|exact Sm]|exact Sm]].
    unfold stands. cbn [px py]. repeat match goal with H : pos _ |- _ => destruct H end. repeat split; assumption || (match goal with H : well_formed ?x |- _ => apply H end).
Qed.
Lemma stands_mk : forall x y P, pos x -> pos y -> match P with Inf => value x = 0 /\ value y = 0 | Aff u v => value x = u /\ value y = v end -> stands (mkPt x y) P.
Proof. intros x y P [Wx Nx] [Wy Ny] H. split; [exact Wx|]. split; [exact Wy|]. split; [exact Nx|]. split; [exact Ny|exact H]. Qed.
Lemma mod_ok : forall m P, stands m P -> on_curve p a b P -> exists r, ec_mod m c = Done (Some r) /\ stands r P.
Proof.
  intros m P St On. pose proof P3 as G. destruct (stands_pos m P St) as [Qx Qy]. unfold ec_mod. rewrite !assign_pos by assumption. redok (px m); [apply Qx|]. redok (py m); [apply Qy|]. eexists. split; [reflexivity|]. apply stands_mk; [assumption|assumption|]. rewrite V, V0.
  destruct St as (_ & _ & _ & _ & St). destruct P as [|x y]; destruct St as [-> ->]; [split; apply Z.mod_0_l; lia|]. destruct On as (B1 & B2 & _). split; apply Z.mod_small; assumption.
Qed.
Lemma inf_ok : forall m P, stands m P -> on_curve p a b P -> is_inf m = match P with Inf => true | Aff _ _ => false end.
Proof.
  intros m P St On. pose proof P3 as G. destruct (stands_pos m P St) as [Qx Qy]. unfold is_inf. rewrite (eq_val _ _ Qx (num_pos 0 ltac:(lia))), (eq_val _ _ Qy (num_pos 0 ltac:(lia))), num_val. change (Z.of_N 0) with 0. destruct St as (_ & _ & _ & _ & St). destruct P as [|x y]; destruct St as [-> ->]; [reflexivity|].
  apply Bool.andb_false_iff. destruct (Z.eqb_spec x 0) as [->|]; [right|left; reflexivity]. apply Z.eqb_neq. intros ->. destruct On as (_ & _ & C). apply Bn. replace (0 * 0 * 0 + a * 0 + b) with b in C by ring. rewrite <- C. change (0 * 0) with 0. apply Z.mod_0_l. lia.
Qed.
Lemma stands_inf : stands (mkPt (num 0) (num 0)) Inf.
Proof. apply stands_mk; [apply num_pos; lia|apply num_pos; lia|]. rewrite num_val. split; reflexivity. Qed.
Lemma add_ok : forall m n P Q, stands m P -> stands n Q -> on_curve p a b P -> on_curve p a b Q -> exists r R, ec_add fuel m n c = Done (Some r) /\ stands r R /\ on_curve p a b R /\ sum p a P Q R.
Proof.
  intros m n P Q St1 St2 On1 On2. pose proof P3 as G. unfold ec_add. destruct (mod_ok m P St1 On1) as (m' & E1 & St1'). destruct (mod_ok n Q St2 On2) as (n' & E2 & St2'). unfold odo at 1. rewrite E1. cbn [obind]. unfold odo at 1. rewrite E2. cbn [obind]. clear E1 E2 St1 St2 m n. rename m' into m, n' into n, St1' into St1, St2' into St2.
  rewrite (inf_ok m P St1 On1), (inf_ok n Q St2 On2). destruct (stands_pos m P St1) as [Qx Qy]. destruct (stands_pos n Q St2) as [Rx Ry]. rewrite !assign_pos by assumption.
  destruct P as [|x1 y1]. { exists (mkPt (px n) (py n)), Q. destruct n. split; [reflexivity|]. split; [exact St2|]. split; [exact On2|constructor]. }
  destruct Q as [|x2 y2]. { exists (mkPt (px m) (py m)), (Aff x1 y1). destruct m. split; [reflexivity|]. split; [exact St1|]. split; [exact On1|constructor]. }
  destruct St1 as (? & ? & ? & ? & X1 & Y1). destruct St2 as (? & ? & ? & ? & X2 & Y2). assert (St1 : stands m (Aff x1 y1)) by (repeat split; assumption || apply H || apply H0).
  assert (exists t, (if negb (mp_eq (py n) (num 0)) then osub (assign None (cp c)) (py n) (fun t => red t (cp c)) else Done (Some (num 0))) = Done (Some t) /\ pos t /\ value t = (- y2) mod p) as (t & Et & Pt & Vt).
  { rewrite (eq_val _ _ Ry (num_pos 0 ltac:(lia))), num_val, Y2. change (Z.of_N 0) with 0. destruct (Z.eqb_spec y2 0) as [E0|E0]; cbn [negb].
    - exists (num 0). split; [reflexivity|]. split; [apply num_pos; lia|]. rewrite num_val, E0. reflexivity.
    - rewrite (assign_pos _ Pcp). subok (cp c) (py n); [apply pos_normal, Pcp|apply pos_normal, Ry|]. destruct (red_ok r (proj1 Nr)) as (t & Et & Pt & Vt). exists t. split; [exact Et|]. split; [exact Pt|]. rewrite Vt, V, Y2. replace (p - y2) with (- y2 + 1 * p) by ring. apply Z.mod_add. lia. }
  unfold odo at 1. rewrite Et. cbn [obind]. clear Et. rewrite (eq_val _ _ Qy Pt), (eq_val _ _ Qx Rx), (eq_val _ _ Qy Ry), Vt, X1, X2, Y1, Y2.
  pose proof On1 as (Bx1 & By1 & C1). pose proof On2 as (Bx2 & By2 & C2).
  destruct (Z.eqb_spec x1 x2) as [Exy|Exy].
  - destruct (Z.eqb_spec y1 ((- y2) mod p)) as [Ey|Ey]; cbn [andb].
    + exists (mkPt (num 0) (num 0)), Inf. split; [reflexivity|]. split; [apply stands_inf|]. split; [exact I|]. destruct Exy. apply sum_opposite. rewrite Ey, Zplus_mod_idemp_l. replace (- y2 + y2) with 0 by ring. apply Z.mod_0_l. lia.
    + destruct Exy. destruct (same_x p a b Prm P2 x1 y1 y2 On1 On2) as [Eo|Eo].
      * exfalso. apply Ey. rewrite <- (Z.mod_small y1 p) by assumption. apply mod_div_iff; [lia|]. apply mod_zero_iff in Eo; [|lia]. replace (y1 - - y2) with (y1 + y2) by ring. exact Eo.
      * destruct Eo. rewrite Z.eqb_refl. destruct (dbl_ok m (Aff x1 y1) St1 On1) as (r & R & E & S1 & O1 & Sm). exists r, R. split; [exact E|]. split; [exact S1|]. split; [exact O1|exact Sm].
  - rewrite Bool.andb_false_r. cbn [andb]. destruct (assign_some t (px m) (proj1 Qx)) as (Wa & Na & Ma & _). rewrite (proj2 Qx) in Na. set (ax := assign (Some t) (px m)) in *. clearbody ax. assert (pos ax) as Pax by (split; assumption). assert (value ax = x1) as Vax by (rewrite (val_pos _ Pax), Ma, <- (val_pos _ Qx); exact X1).
    subok ax (px n); [apply pos_normal, Pax|apply pos_normal, Rx|]. redok r; [apply Nr|]. rewrite V, Vax, X2 in V0.
    destruct (inv_ok t0 Pt0) as (i & Ei & Pi & Vi); [rewrite V0; pose proof (Z.mod_pos_bound (x1 - x2) p ltac:(lia)); lia| |].
    { rewrite V0, Z.mod_mod by lia. intro D. apply mod_zero_iff in D; [|lia]. apply small_div in D; lia. }
    unfold odo at 1. rewrite Ei. cbn [obind]. destruct (assign_some t0 i (proj1 Pi)) as (Wi & Ni & Mi & _). rewrite (proj2 Pi) in Ni. set (ai := assign (Some t0) i) in *. clearbody ai. assert (pos ai) as Pai by (split; assumption). assert (value ai = value i) as Vai by (rewrite (val_pos _ Pai), Mi, <- (val_pos _ Pi); reflexivity).
    subok (py m) (py n); [apply pos_normal, Qy|apply pos_normal, Ry|]. rewrite Y1, Y2 in V1. destruct (mul_s_ok r0 ai Nr0 (pos_normal _ Pai)) as [Nsi Vsi]. rewrite V1, Vai in Vsi. redok (mul_s r0 ai); [apply Nsi|]. rewrite Vsi in V2. rename t1 into s, Pt1 into Psl. rewrite !(assign_pos _ Psl).
    destruct (mul_s_ok s s (pos_normal _ Psl) (pos_normal _ Psl)) as [Nss Vss]. subok (mul_s s s) (px m); [exact Nss|apply pos_normal, Qx|]. rewrite Vss, X1 in V3. subok r1 (px n); [assumption|apply pos_normal, Rx|]. rewrite V3, X2 in V4. redok r2; [apply Nr2|]. rewrite V4 in V5. rename t1 into x3.
    subok (px m) x3; [apply pos_normal, Qx|apply pos_normal; assumption|]. rewrite X1 in V6. rewrite (assign_none r3) by apply Nr3. destruct (mul_s_ok r3 s ltac:(assumption) (pos_normal _ Psl)) as [Nsr Vsr]. rewrite V6 in Vsr. subok (mul_s r3 s) (py m); [exact Nsr|apply pos_normal, Qy|]. rewrite Vsr, Y1 in V7. redok r4; [apply Nr4|]. rewrite V7 in V8.
    assert (sum p a (Aff x1 y1) (Aff x2 y2) (Aff (value x3) (value t1))) as Sm.
    { apply (sum_chord p a (value s)); [exact Exy| |exact V5|rewrite (Z.mul_comm (value s)); exact V8].
      apply mod_div_iff; [lia|]. rewrite V2. destruct (mod_ex p ((y1 - y2) * value i) ltac:(lia)) as [k Ek]. rewrite Ek. destruct (mod_ex p (x1 - x2) ltac:(lia)) as [k2 Ek2]. rewrite V0, Ek2 in Vi.
      assert (1 mod p = 1) as O1 by (apply Z.mod_1_l; lia). rewrite <- O1 in Vi. apply mod_div_iff in Vi; [|lia]. destruct Vi as [j Vi].
      exists ((y1 - y2) * (j - value i * k2) + k * (x1 - x2)). transitivity ((y1 - y2) * ((value i * (x1 - x2 + k2 * p) - 1) - value i * k2 * p) + k * (x1 - x2) * p); [ring|]. rewrite Vi. ring. }
    exists (mkPt x3 t1), (Aff (value x3) (value t1)). split; [reflexivity|]. split; [apply stands_mk; [assumption|assumption|split; reflexivity]|]. split; [eapply sum_on; [apply Prm|apply P2|exact On1|exact On2|exact Sm]|exact Sm].
Qed.
Lemma assign_stands : forall x y t T, stands t T -> stands (mkPt (assign (Some x) (px t)) (assign (Some y) (py t))) T.
Proof.
  intros x y t T St. destruct (stands_pos t T St) as [Qx Qy]. destruct St as (_ & _ & _ & _ & St). destruct (assign_some x (px t) (proj1 Qx)) as (W1 & N1 & M1 & _). destruct (assign_some y (py t) (proj1 Qy)) as (W2 & N2 & M2 & _). rewrite (proj2 Qx) in N1. rewrite (proj2 Qy) in N2.
  assert (pos (assign (Some x) (px t))) as A1 by (split; assumption). assert (pos (assign (Some y) (py t))) as A2 by (split; assumption). apply stands_mk; [exact A1|exact A2|]. rewrite (val_pos _ A1), (val_pos _ A2), M1, M2, <- (val_pos _ Qx), <- (val_pos _ Qy). exact St.
Qed.
Fixpoint bv (l : list bool) : N := match l with [] => 0 | x :: l => N.b2n x + 2 * bv l end.
Lemma loop_ok : forall P bits r q R Q i j, stands r R -> stands q Q -> on_curve p a b R -> on_curve p a b Q -> multiple p a P i R -> multiple p a P j Q ->
  exists t T, mul_loop fuel c (r, q) bits = Done (Some t) /\ stands t T /\ on_curve p a b T /\ multiple p a P (i + 2 * (j * bv bits)) T.
Proof.
  intros P bits. induction bits as [|x bits IH]; intros r q R Q i j Sr Sq Or Oq Mr Mq.
  - exists r, R. split; [reflexivity|]. split; [exact Sr|]. split; [exact Or|]. cbn [bv]. rewrite N.mul_0_r, N.mul_0_r, N.add_0_r. exact Mr.
  - cbn [mul_loop]. unfold mul_step. destruct (dbl_ok q Q Sq Oq) as (q2 & Q2 & E2 & S2 & O2 & D2). unfold odo at 2. rewrite E2. cbn [obind]. pose proof (assign_stands (px q) (py q) q2 Q2 S2) as S2'. pose proof (multiple_add p a P j j Q Q Q2 Mq Mq D2) as M2. set (q' := mkPt _ _) in *. clearbody q'.
    destruct x.
    + destruct (add_ok r q' R Q2 Sr S2' Or O2) as (r2 & R2 & E3 & S3 & O3 & D3). unfold odo at 2. rewrite E3. unfold odo. cbn [obind]. pose proof (assign_stands (px r) (py r) r2 R2 S3) as S3'. destruct (IH _ q' R2 Q2 (i + (j + j))%N (j + j)%N S3' S2' O3 O2 (multiple_add _ _ _ _ _ _ _ _ Mr M2 D3) M2) as (t & T & E & St & Ot & Mt). exists t, T. split; [exact E|]. split; [exact St|]. split; [exact Ot|].
      replace (i + 2 * (j * bv (true :: bits)))%N with (i + (j + j) + 2 * ((j + j) * bv bits))%N; [exact Mt|]. cbn [bv N.b2n]. ring.
    + unfold odo. cbn [obind]. destruct (IH r q' R Q2 i (j + j)%N Sr S2' Or O2 Mr M2) as (t & T & E & St & Ot & Mt). exists t, T. split; [exact E|]. split; [exact St|]. split; [exact Ot|].
      replace (i + 2 * (j * bv (false :: bits)))%N with (i + 2 * ((j + j) * bv bits))%N; [exact Mt|]. cbn [bv N.b2n]. ring.
Qed.
Lemma horner_app : forall l x acc, horner (l ++ [x]) acc = (2 * horner l acc + N.b2n x)%N.
Proof. intros. unfold horner. rewrite fold_left_app. cbn [fold_left]. destruct x; cbn [N.b2n]; lia. Qed.
Lemma horner_rev : forall l, horner (rev l) 0 = bv l.
Proof. induction l as [|x l IH]; [reflexivity|]. cbn [rev bv]. rewrite horner_app, IH. lia. Qed.
Lemma horner_drop : forall l, horner (drop_zeros l) 0 = horner l 0.
Proof. induction l as [|[] l IH]; [reflexivity|reflexivity|]. cbn [drop_zeros]. rewrite IH. reflexivity. Qed.
Lemma mul_ok : forall m P d, stands m P -> on_curve p a b P -> well_formed d -> neg d = false ->
  exists t T, ec_mul fuel m d c = Done (Some t) /\ stands t T /\ on_curve p a b T /\ multiple p a P (magnitude d) T.
Proof.
  intros m P d St On Wd Nd. pose proof (conj Wd Nd : pos d) as Pd. unfold ec_mul. rewrite (eq_num d 0 Pd) by reflexivity. destruct (N.eqb_spec (magnitude d) 0) as [E0|E0].
  - exists (mkPt (num 0) (num 0)), Inf. split; [reflexivity|]. split; [apply stands_inf|]. split; [exact I|]. rewrite E0. constructor.
  - pose proof (bitmap_ok d Wd) as H. assert (64 <= length (bitmap d))%nat as L.
    { unfold bitmap. destruct Wd as [W _]. destruct (data d) as [|x l]; [congruence|]. cbn [rev]. rewrite map_app, concat_app, app_length. cbn [map concat]. rewrite app_nil_r. unfold digit_bits at 2. rewrite map_length, rev_length, seq_length. lia. }
    rewrite <- (rev_involutive (bitmap d)) in H. rewrite <- rev_length in L. destruct (rev (bitmap d)) as [|low [|b1 bits]]; cbn [length] in L; [lia|lia|]. rewrite horner_rev in H.
    destruct (stands_pos m P St) as [Qx Qy]. rewrite !assign_pos by assumption. assert (mkPt (px m) (py m) = m) as -> by (destruct m; reflexivity).
    assert (exists i R, (if low then m else mkPt (num 0) (num 0)) = i /\ stands i R /\ on_curve p a b R /\ multiple p a P (N.b2n low) R) as (i & R & -> & Si & Oi & Mi).
    { destruct low; [exists m, P; split; [reflexivity|]; split; [exact St|]; split; [exact On|constructor]|]. exists (mkPt (num 0) (num 0)), Inf. split; [reflexivity|]. split; [apply stands_inf|]. split; [exact I|constructor]. }
    destruct (loop_ok P (b1 :: rev (drop_zeros (rev bits))) i m R P (N.b2n low) 1 Si St Oi On Mi (multiple_1 _ _ _)) as (t & T & E & Stt & Ot & Mt). exists t, T. split; [exact E|]. split; [exact Stt|]. split; [exact Ot|].
    replace (magnitude d) with (N.b2n low + 2 * (1 * bv (b1 :: rev (drop_zeros (rev bits)))))%N; [exact Mt|]. rewrite <- H. cbn [bv]. rewrite <- (horner_rev (rev (drop_zeros (rev bits)))), rev_involutive, horner_drop, horner_rev. lia.
Qed.
End Curve.
