(* Modular inverse for even moduli, Barrett and Montgomery reductions, random values. *)
From Verif Require Import Words MpModel MpModel2 MpSpec MpProofs MpProofs2 MpProofs3 MpProofs4.
Open Scope N_scope.

Definition sg (iter : bool) : Z := if iter then 1%Z else (-1)%Z.
Lemma sg_negb : forall b, sg (negb b) = (- sg b)%Z. Proof. intros []; reflexivity. Qed.
(* the loop invariant *)
Record inv (U V : Z) (u1 u3 v1 v3 : mp) (iter : bool) : Prop := {
  i_p : pos u1 /\ pos u3 /\ pos v1 /\ pos v3;
  i_u : (V | zm u1 * U - sg iter * zm u3)%Z;
  i_v : (V | zm v1 * U + sg iter * zm v3)%Z;
  i_d : (zm u1 * zm v3 + zm v1 * zm u3 = V)%Z;
  i_g : Z.gcd (zm u3) (zm v3) = Z.gcd U V;
  i_l : (zm v3 = 0 -> zm u1 <= zm v1)%Z;
  i_z : (zm u3 = 0 -> zm v1 <= zm u1)%Z
}.
Lemma zm0 : forall a, (0 <= zm a)%Z. Proof. intro a. unfold zm. lia. Qed.
Lemma inv_step : forall U V u1 u3 v1 v3 iter q t3 t1, inv U V u1 u3 v1 v3 iter -> (zm v3 <> 0)%Z -> pos q -> pos t3 -> pos t1 -> (zm u3 = zm q * zm v3 + zm t3)%Z -> (zm t1 = zm q * zm v1 + zm u1)%Z ->
  inv U V (assign (Some u1) v1) (assign (Some u3) v3) (assign (Some v1) t1) (assign (Some v3) t3) (negb iter).
Proof.
  intros U V u1 u3 v1 v3 iter q t3 t1 [(P1 & P2 & P3 & P4) Iu Iv Id Ig Il Iz] V3 Pq Pt3 Pt1 E3 E1.
  destruct (pos_assign u1 v1 P3) as [Q1 M1]. destruct (pos_assign u3 v3 P4) as [Q2 M2]. destruct (pos_assign v1 t1 Pt1) as [Q3 M3]. destruct (pos_assign v3 t3 Pt3) as [Q4 M4].
  pose proof (zm0 u1). pose proof (zm0 v1). pose proof (zm0 q). pose proof (zm0 v3). pose proof (zm0 t3). pose proof (zm0 u3).
  split; unfold zm at 1 2 in E3, E1 |- * || idtac.
  - repeat split; (apply Q1 || apply Q2 || apply Q3 || apply Q4).
  - unfold zm. rewrite M1, M2. fold (zm v1) (zm v3). rewrite sg_negb. replace (zm v1 * U - - sg iter * zm v3)%Z with (zm v1 * U + sg iter * zm v3)%Z by ring. exact Iv.
  - unfold zm. rewrite M3, M4. fold (zm t1) (zm t3). rewrite sg_negb, E1. replace (zm t3) with (zm u3 - zm q * zm v3)%Z by lia.
    replace ((zm q * zm v1 + zm u1) * U + - sg iter * (zm u3 - zm q * zm v3))%Z with ((zm u1 * U - sg iter * zm u3) + zm q * (zm v1 * U + sg iter * zm v3))%Z by ring. apply Z.divide_add_r; [exact Iu|apply Z.divide_mul_r, Iv].
  - unfold zm. rewrite M1, M2, M3, M4. fold (zm v1) (zm v3) (zm t1) (zm t3). rewrite E1. replace (zm t3) with (zm u3 - zm q * zm v3)%Z by lia. rewrite <- Id. ring.
  - unfold zm. rewrite M2, M4. fold (zm v3) (zm t3). rewrite <- Ig, E3. rewrite (Z.gcd_comm (zm v3)). rewrite (Z.gcd_comm (_ + _)). rewrite (Z.add_comm _ (zm t3)). rewrite Z.gcd_comm. symmetry. apply Z.gcd_add_mult_diag_r.
  - unfold zm. rewrite M1, M3, M4. fold (zm v1) (zm t1) (zm t3). intro T. destruct (Z.eq_dec (zm u3) 0) as [Z|Z]; [specialize (Iz Z); nia|]. assert (1 <= zm q)%Z by nia. nia.
  - unfold zm. rewrite M2. fold (zm v3). intro T. contradiction.
Qed.
Lemma euclid_ok : forall U V fuel u1 u3 v1 v3 iter r, inv U V u1 u3 v1 v3 iter -> euclid_loop fuel u1 u3 v1 v3 iter = Done (Some r) ->
  let '(a1, a3, it) := r in exists b1 b3, inv U V a1 a3 b1 b3 it /\ zm b3 = 0%Z.
Proof.
  intros U V. induction fuel as [|fuel IH]; intros u1 u3 v1 v3 iter r I E; [discriminate|]. cbn [euclid_loop] in E. destruct (i_p _ _ _ _ _ _ _ I) as (P1 & P2 & P3 & P4). rewrite ne_zero in E by exact P4. destruct (N.eqb_spec (magnitude v3) 0) as [Z|Z]; cbn [negb] in E.
  - injection E as <-. exists v1, v3. split; [exact I|]. unfold zm. rewrite Z. reflexivity.
  - destruct (mp_div_ok u3 v3 P2 P4 Z) as (q & t3 & Ed & Pq & Pt & Vd & _). rewrite Ed in E. cbn [obind] in E. destruct (pos_mul q v1 Pq P3) as [Pm Mm].
    destruct (mp_add_cases (mp_mul (Some q) v1) u1 (proj1 Pm) (proj1 P1)) as [[_ A]|(t1 & A & Nt & Mt & Wt & _)]; [rewrite A in E; discriminate|]. rewrite A in E. cbn [obind] in E.
    apply (IH _ _ _ _ _ _) with (2 := E). apply inv_step with q; try assumption; unfold zm; [lia|split; [exact Wt|rewrite Nt; apply Pm]|lia|lia].
Qed.
Lemma gcd_NZ : forall a b, Z.of_N (N.gcd a b) = Z.gcd (Z.of_N a) (Z.of_N b).
Proof. intros [|a] [|b]; reflexivity. Qed.
Lemma euclid_start : forall u v, pos u -> pos v -> magnitude v <> 0 -> inv (zm u) (zm v) (num 1) u (num 0) v true.
Proof.
  intros u v Pu Pv V0. split; unfold zm; rewrite ?mag_num; cbn [sg].
  - repeat split; (apply Pu || apply Pv || (apply pos_num; reflexivity) || reflexivity).
  - exists 0%Z. lia.
  - exists 1%Z. lia.
  - lia.
  - reflexivity.
  - lia.
  - lia.
Qed.
Lemma modinv_even_ok : forall fuel u v r, pos u -> pos v -> magnitude v <> 0 -> is_odd v = false -> modinv fuel u v = Done (Some r) ->
  pos r /\ magnitude r < magnitude v /\ (N.gcd (magnitude u) (magnitude v) = 1 -> magnitude r * magnitude u mod magnitude v = 1 mod magnitude v) /\ (N.gcd (magnitude u) (magnitude v) <> 1 -> magnitude r = 0).
Proof.
  intros fuel u v r Pu Pv V0 Od E. unfold modinv in E. rewrite Od in E. rewrite !assign_pos in E by assumption. destruct (euclid_loop fuel (num 1) u (num 0) v true) as [[[[a1 a3] it]|]|] eqn:EL; cbn [obind] in E; [|discriminate|discriminate].
  destruct (euclid_ok (zm u) (zm v) _ _ _ _ _ _ _ (euclid_start u v Pu Pv V0) EL) as (b1 & b3 & [(P1 & P2 & P3 & P4) Iu Iv Id Ig Il Iz] & B3).
  rewrite odd_ok in Od by apply Pv. assert (magnitude v <> 1) as V1 by (intro Z; rewrite Z in Od; discriminate).
  rewrite B3, Z.gcd_0_r in Ig. rewrite B3 in Id. specialize (Il B3). pose proof (zm0 a1). pose proof (zm0 a3). pose proof (zm0 b1). rewrite Z.abs_eq in Ig by apply zm0.
  assert (magnitude a3 = N.gcd (magnitude u) (magnitude v)) as G. { apply N2Z.inj. unfold zm in Ig. rewrite Ig. rewrite gcd_NZ. reflexivity. }
  rewrite mp_eq_ok in E by (try apply P2; apply wf_num; rewrite B_eq; reflexivity). rewrite (proj2 P2), mag_num in E. cbn [num neg Bool.eqb andb] in E. destruct (N.eqb_spec (magnitude a3) 1) as [C|C].
  - assert (zm a3 = 1%Z) as Z1 by (unfold zm; lia). rewrite Z1 in *. assert (zm b1 = zm v) as Zb by lia.
    assert (zm a1 <> 0)%Z as A0. { intro Z. rewrite Z in Iu. replace (0 * zm u - sg it * 1)%Z with (- sg it)%Z in Iu by ring. apply Z.divide_opp_r in Iu. assert (zm v | 1)%Z as D by (destruct it; cbn [sg] in Iu; [exact Iu|apply Z.divide_opp_r in Iu; exact Iu]). apply Z.divide_1_r_nonneg in D; [unfold zm in D; lia|apply zm0]. }
    assert (zm a1 <> zm v)%Z as A1. { intro Z. rewrite Z in Iu. assert (zm v | 1)%Z as D. { destruct Iu as [k K]. destruct it; cbn [sg] in K; [exists (zm u - k)%Z|exists (k - zm u)%Z]; lia. } apply Z.divide_1_r_nonneg in D; [unfold zm in D; lia|apply zm0]. }
    destruct it; cbn [sg] in Iu.
    + injection E as <-. rewrite assign_pos by exact P1. split; [exact P1|]. split; [unfold zm in *; lia|]. split; [|intro; lia]. intros _. apply N2Z.inj. rewrite !N2Z.inj_mod, N2Z.inj_mul. fold (zm a1) (zm u) (zm v). destruct Iu as [k K]. replace (zm a1 * zm u)%Z with (1 + k * zm v)%Z by lia. apply Z.mod_add. unfold zm. lia.
    + destruct (pos_sub v a1 Pv P1) as (t & Et & Pt & Mt); [unfold zm in *; lia|]. rewrite Et in E. cbn [obind] in E. injection E as <-. split; [exact Pt|]. split; [unfold zm in *; lia|]. split; [|intro; lia]. intros _. apply N2Z.inj. rewrite !N2Z.inj_mod, N2Z.inj_mul. fold (zm t) (zm u) (zm v). assert (zm t = zm v - zm a1)%Z as -> by (unfold zm in *; lia). destruct Iu as [k K].
      replace ((zm v - zm a1) * zm u)%Z with (1 + (zm u - k) * zm v)%Z by lia. apply Z.mod_add. unfold zm. lia.
  - injection E as <-. rewrite mag_num. split; [apply pos_num; reflexivity|]. split; [lia|]. split; [intro; lia|reflexivity].
Qed.

(* one-digit values: the divisions are exact, the loop ends *)
Lemma size1 : forall a, pos a -> size a = 1%nat -> a = num (magnitude a).
Proof. intros [s l] [W Na] S1. cbn in Na. subst s. unfold size in S1. cbn [data] in S1. destruct l as [|d [|e l]]; try discriminate. rewrite mag. cbn [data digits_val]. rewrite N.mul_0_r, N.add_0_r. reflexivity. Qed.
Lemma num_size : forall a, pos a -> size a = 1%nat -> magnitude a < B.
Proof. intros a Pa S1. pose proof (mag_lt a (proj1 Pa)) as H. rewrite S1 in H. change (N.of_nat 1) with 1 in H. rewrite N.pow_1_r in H. exact H. Qed.
Lemma size_one : forall a, well_formed a -> magnitude a < B -> (trimmed_digits a \/ size a = 1%nat) -> size a = 1%nat.
Proof.
  intros a W L [T|S1]; [|exact S1]. apply wf1 in W. rewrite mag in L. unfold trimmed_digits in T. unfold size. destruct W as [N0 W]. destruct (data a) as [|d [|e l]]; [congruence|reflexivity|exfalso].
  assert (dv (e :: l) <> 0) as Z. { intro Z. apply strip_nil in Z. change (last (d :: e :: l) 0) with (last (e :: l) 0) in T. rewrite (strip_id _ T) in Z. discriminate. }
  cbn [digits_val] in L. cbn [digits_val] in Z. set (k := e + B * dv l) in *. nia.
Qed.
Lemma trimmed_size : forall l, wd l -> dv l < B -> size (trimmed l) = 1%nat.
Proof.
  intros l W L. destruct (N.eq_dec (dv l) 0) as [Z|Z].
  - unfold trimmed. apply strip_nil in Z. rewrite Z. reflexivity.
  - destruct (strip_bounds l W Z) as (S1 & S2 & S3). assert (length (strip l) = 1%nat) as E.
    { destruct (length (strip l)) as [|[|n]] eqn:E; [lia|reflexivity|exfalso]. revert S2 S3. rewrite ?E. intros. assert (B ^ N.of_nat 1 <= dv l) as G; [|change (N.of_nat 1) with 1 in G; rewrite N.pow_1_r in G; lia]. eapply N.le_trans; [|exact S2]. apply N.pow_le_mono_r; [apply B_nz|lia]. }
    unfold trimmed, size. cbn [data]. rewrite app_length, repeat_length, E. reflexivity.
Qed.
Lemma trimmed_size2 : forall l, well_formed (trimmed l) -> magnitude (trimmed l) < B -> size (trimmed l) = 1%nat.
Proof.
  intros l W L. assert (strip (strip l) = strip l) as SS. { destruct (strip l) as [|d r] eqn:E; [reflexivity|]. rewrite <- E. apply strip_id, strip_last. rewrite E. discriminate. }
  assert (trimmed l = trimmed (strip l)) as T by (unfold trimmed; rewrite SS; reflexivity). rewrite T. apply wf1 in W. destruct W as [_ W]. rewrite mag in L. unfold trimmed in W, L. cbn [data] in W, L. rewrite dv_pad in L. apply Forall_app in W. apply trimmed_size; [apply W|exact L].
Qed.
(* the remainder of one-digit values has one digit *)
Lemma div_one_digit : forall x y, pos x -> pos y -> size x = 1%nat -> size y = 1%nat -> magnitude y <> 0 ->
  exists q r, mp_div x y = Done (Some (q, r)) /\ pos q /\ pos r /\ size r = 1%nat /\ magnitude q = magnitude x / magnitude y /\ magnitude r = magnitude x mod magnitude y.
Proof.
  intros x y Px Py Sx Sy Y0. destruct (mp_div_ok x y Px Py Y0) as (q & r & E & Pq & Pr & V & L). pose proof (num_size y Py Sy) as UB. pose proof (num_size x Px Sx) as UX.
  assert (magnitude r < magnitude y) as Lr. { apply L; [|apply one_digit_leads, UB]. unfold trimmed_digits. rewrite (size1 y Py Sy). cbn. exact Y0. }
  exists q, r. split; [exact E|]. split; [exact Pq|]. split; [exact Pr|]. split; [|split; [apply N.div_unique with (magnitude r); lia|apply N.mod_unique with (magnitude q); lia]].
  unfold mp_div in E. destruct (is_zero y); [discriminate|]. destruct (is_zero x); [injection E as <- <-; reflexivity|]. destruct (mp_lt x y); [injection E as <- <-; rewrite assign_pos by exact Px; exact Sx|].
  destruct (normalize _ _ _ _) as [[xn yn] s]. revert E. generalize (guess_loop 255 xn (mp_lsh (assign None yn) (64 * Nat.max 1 (size xn - size yn))) 0). intros [[x1 qm]|] E; cbn [obind] in E; [|discriminate].
  destruct ((qm =? 255) && mp_ge x1 (mp_lsh (assign None yn) (64 * Nat.max 1 (size xn - size yn))))%bool; (destruct (mp_lt _ yn); [|destruct (div_loop _ _ _ _ _) as [[x3 q3]|]]); cbn [obind] in E; try discriminate; injection E as _ <-.
  all: apply trimmed_size2; [apply Pr|lia].
Qed.
Lemma euclid_total : forall fuel u1 u3 v1 v3 iter, pos u1 -> pos u3 -> pos v1 -> pos v3 -> size u3 = 1%nat -> size v3 = 1%nat -> (magnitude u1 <> 0 \/ (magnitude v1 <> 0 /\ magnitude v3 <= magnitude u3)) ->
  (N.to_nat (magnitude v3) + (if (magnitude u3 <? magnitude v3)%N then 1 else 0) < fuel)%nat -> exists r, euclid_loop fuel u1 u3 v1 v3 iter = Done (Some r).
Proof.
  induction fuel as [|fuel IH]; intros u1 u3 v1 v3 iter P1 P2 P3 P4 S3 T3 H F; [lia|]. cbn [euclid_loop]. rewrite ne_zero by exact P4. destruct (N.eqb_spec (magnitude v3) 0) as [Z|Z]; cbn [negb]; [eexists; reflexivity|].
  destruct (div_one_digit u3 v3 P2 P4 S3 T3 Z) as (q & r & E & Pq & Pr & Sr & Mq & Mr). rewrite E. cbn [obind]. destruct (pos_mul q v1 Pq P3) as [Pm Mm].
  pose proof (N.mod_lt (magnitude u3) (magnitude v3) Z) as Lt. pose proof (N.div_mod' (magnitude u3) (magnitude v3)) as DM.
  assert (magnitude v3 <= magnitude u3 -> magnitude q <> 0) as Q0 by (intros L; rewrite Mq; intro C; rewrite C in DM; lia).
  destruct (mp_add_ok (mp_mul (Some q) v1) u1 (proj1 Pm) (proj1 P1)) as (t1 & A & Nt & Mt & Wt & _).
  { rewrite Mm. destruct H as [H|[H1 H2]]; [lia|]. specialize (Q0 H2). nia. }
  rewrite A. cbn [obind]. assert (pos t1) as Pt by (split; [exact Wt|rewrite Nt; apply Pm]).
  destruct (pos_assign u1 v1 P3) as [R1 M1]. destruct (pos_assign u3 v3 P4) as [R2 M2]. destruct (pos_assign v1 t1 Pt) as [R3 M3]. destruct (pos_assign v3 r Pr) as [R4 M4].
  destruct (assign_some u3 v3 (proj1 P4)) as (_ & _ & _ & Z1). destruct (assign_some v3 r (proj1 Pr)) as (_ & _ & _ & Z2).
  assert (magnitude t1 <> 0) as T0. { rewrite Mt, Mm. destruct H as [H|[H1 H2]]; [lia|]. specialize (Q0 H2). nia. }
  apply IH; try assumption.
  - rewrite Z1, S3, T3. reflexivity.
  - rewrite Z2, Sr, T3. reflexivity.
  - right. rewrite M2, M3, M4, Mr. split; [exact T0|lia].
  - rewrite M2, M4, Mr. destruct (N.ltb_spec (magnitude u3) (magnitude v3)) as [C|C]; destruct (N.ltb_spec (magnitude v3) (magnitude u3 mod magnitude v3)); try lia.
Qed.
Lemma modinv_even_one : forall fuel u v, pos u -> pos v -> size u = 1%nat -> size v = 1%nat -> magnitude v <> 0 -> is_odd v = false -> (N.to_nat (magnitude v) + 1 < fuel)%nat -> exists r, modinv fuel u v = Done (Some r).
Proof.
  intros fuel u v Pu Pv Su Sv V0 Od F. destruct (euclid_total fuel (num 1) u (num 0) v true) as (r & E); try assumption; try (apply pos_num; reflexivity); [left; rewrite mag_num; discriminate|destruct (magnitude u <? magnitude v); lia|].
  pose proof (euclid_ok (zm u) (zm v) _ _ _ _ _ _ _ (euclid_start u v Pu Pv V0) E) as I. destruct r as [[a1 a3] it]. destruct I as (b1 & b3 & [(P1 & P2 & _) _ _ Id _ Il _] & B3). unfold modinv. rewrite Od, !assign_pos by assumption. rewrite E. cbn [obind]. rewrite B3 in Id. specialize (Il B3).
  rewrite mp_eq_ok by (try apply P2; apply wf_num; rewrite B_eq; reflexivity). rewrite (proj2 P2), mag_num. cbn [num neg Bool.eqb andb]. destruct (N.eqb_spec (magnitude a3) 1) as [C|C]; [|eexists; reflexivity]. destruct it; [eexists; reflexivity|].
  destruct (pos_sub v a1 Pv P1) as (t & Et & _ & _); [unfold zm in *; rewrite C in Id; lia|]. rewrite Et. eexists. reflexivity.
Qed.

(* ---- Barrett *)
Lemma barrett_ok : forall x m, pos x -> pos m -> magnitude m <> 0 -> magnitude x < 2 * magnitude m -> exists r, barrett x None m = Done (Some r) /\ pos r /\ magnitude r = magnitude x mod magnitude m.
Proof.
  intros x m Px Pm M0 L. unfold barrett. rewrite (proj2 Pm). cbn [orb]. assert (is_zero m = false) as ->. { apply not_true_is_false. intro H. apply is_zero_dv in H. rewrite <- mag in H. contradiction. }
  set (sh := barrett_shift m). destruct (pos_lsh (num 1) sh (pos_num 1 ltac:(reflexivity))) as [P1 M1]. rewrite mag_num, N.mul_1_r in M1. destruct (mp_div_ok (mp_lsh (num 1) sh) m P1 Pm M0) as (f & rr & E & Pf & _ & V & _). rewrite E. cbn [obind]. clear E.
  rewrite M1 in V. rewrite !assign_pos by assumption. rewrite (proj2 Px). cbn [orb]. destruct (pos_lsh m 1 Pm) as [P2 M2]. change (2 ^ N.of_nat 1) with 2 in M2.
  rewrite mp_ge_ok by (try apply Px; try apply P2; rewrite (proj2 Px), (proj2 P2); reflexivity). rewrite M2. assert (2 * magnitude m <=? magnitude x = false) as -> by (apply N.leb_gt, L).
  destruct (pos_mul x f Px Pf) as [P3 M3]. destruct (mp_rsh_ok (mp_mul (Some x) f) sh (proj1 P3)) as (W4 & N4 & M4 & _). destruct (pos_mul _ m (conj W4 N4) Pm) as [P5 M5]. rewrite M4, M3 in M5. set (temp := mp_mul (Some _) m) in *.
  assert (magnitude temp <= magnitude x) as Lt.
  { rewrite M5. set (p := 2 ^ N.of_nat sh) in *. assert (p <> 0) as P0 by (apply N.pow_nonzero; discriminate). pose proof (N.mul_div_le (magnitude x * magnitude f) p P0) as D. set (k := magnitude x * magnitude f / p) in *. apply N.mul_le_mono_pos_l with p; [lia|].
    apply N.le_trans with (magnitude x * magnitude f * magnitude m); [nia|]. rewrite <- N.mul_assoc, (N.mul_comm p). apply N.mul_le_mono_l. lia. }
  destruct (pos_sub x temp Px P5 Lt) as (r & Er & Pr & Mr). rewrite Er. cbn [obind]. rewrite mp_ge_ok by (try apply Pr; try apply Pm; rewrite (proj2 Pr), (proj2 Pm); reflexivity).
  set (k := magnitude x * magnitude f / 2 ^ N.of_nat sh) in *. destruct (N.leb_spec (magnitude m) (magnitude r)) as [C|C].
  - destruct (pos_sub r m Pr Pm C) as (r2 & E2 & Pr2 & Mr2). rewrite E2. cbn [obind]. exists r2. split; [reflexivity|]. split; [exact Pr2|]. apply N.mod_unique with (k + 1); nia.
  - exists r. split; [reflexivity|]. split; [exact Pr|]. apply N.mod_unique with k; nia.
Qed.
Lemma barrett_mod : forall x m, well_formed x -> pos m -> magnitude m <> 0 -> (neg x = true \/ 2 * magnitude m <= magnitude x) -> barrett x None m = mp_mod x m.
Proof.
  intros x m Wx Pm M0 H. unfold barrett. rewrite (proj2 Pm). cbn [orb]. assert (is_zero m = false) as ->. { apply not_true_is_false. intro Z. apply is_zero_dv in Z. rewrite <- mag in Z. contradiction. }
  set (sh := barrett_shift m). destruct (pos_lsh (num 1) sh (pos_num 1 ltac:(reflexivity))) as [P1 M1]. destruct (mp_div_ok (mp_lsh (num 1) sh) m P1 Pm M0) as (f & rr & E & Pf & _ & V & _). rewrite E. cbn [obind]. clear E. rewrite !assign_none by (apply Wx || apply (proj1 Pm)).
  destruct (neg x) eqn:Nx; [reflexivity|]. destruct H as [H|H]; [discriminate|]. destruct (pos_lsh m 1 Pm) as [P2 M2]. change (2 ^ N.of_nat 1) with 2 in M2.
  rewrite mp_ge_ok by (try exact Wx; try apply P2; rewrite Nx, (proj2 P2); reflexivity). rewrite M2. assert (2 * magnitude m <=? magnitude x = true) as -> by (apply N.leb_le, H). reflexivity.
Qed.
(* ---- Montgomery *)
Lemma mont_step_ok : forall y n x, pos y -> N.odd (magnitude y) = true -> pos x -> exists z k, Nat.iter n (mont_step y) (Done x) = Done z /\ pos z /\ 2 ^ N.of_nat n * magnitude z = magnitude x + k * magnitude y /\ k < 2 ^ N.of_nat n.
Proof.
  intros y n x Py Oy Px. induction n as [|n (z & k & E & Pz & V & K)]; [exists x, 0; cbn [Nat.iter nat_rect]; split; [reflexivity|]; split; [exact Px|]; change (2 ^ N.of_nat 0) with 1; lia|].
  change (Nat.iter (S n) (mont_step y) (Done x)) with (mont_step y (Nat.iter n (mont_step y) (Done x))). rewrite E. unfold mont_step. cbn [obind]. rewrite odd_ok by apply Pz. rewrite Nat2N.inj_succ, N.pow_succ_r'. set (p := 2 ^ N.of_nat n) in *. destruct (N.odd (magnitude z)) eqn:O.
  - destruct (mp_add_ok z y (proj1 Pz) (proj1 Py)) as (t & A & Nt & Mt & Wt & _); [intro Z; destruct (magnitude y); [discriminate|lia]|]. rewrite A. cbn [obind]. destruct (pos_rsh t (conj Wt (eq_trans Nt (proj2 Pz)))) as [P1 M1]. exists (mp_rsh t 1), (k + p). split; [reflexivity|]. split; [exact P1|].
    assert (N.even (magnitude t) = true) as Ev by (rewrite Mt, N.even_add, <- !N.negb_odd, O, Oy; reflexivity). apply even_half in Ev. rewrite M1. set (h := magnitude t / 2) in *. split; [|lia]. replace (2 * p * h) with (p * (2 * h)) by ring. rewrite <- Ev, Mt. rewrite N.mul_add_distr_l, V. ring.
  - cbn [obind]. destruct (pos_rsh z Pz) as [P1 M1]. exists (mp_rsh z 1), k. split; [reflexivity|]. split; [exact P1|]. assert (N.even (magnitude z) = true) as Ev by (rewrite <- N.negb_odd, O; reflexivity). apply even_half in Ev. rewrite M1. set (h := magnitude z / 2) in *. split; [|lia]. rewrite <- V. rewrite Ev. ring.
Qed.
Lemma mont_ok : forall x y, pos x -> pos y -> N.odd (magnitude y) = true -> exists z k, mont_2kx x y = Done z /\ pos z /\ (2 ^ Z.of_nat (64 * size x) * zm z = zm x + k * zm y)%Z.
Proof.
  intros x y Px Py Oy. unfold mont_2kx. rewrite assign_pos by exact Px. destruct (mont_step_ok y (64 * size x) x Py Oy Px) as (z & k & E & Pz & V & _). rewrite E. cbn [obind]. rewrite mp_ge_ok by (try apply Pz; try apply Py; rewrite (proj2 Pz), (proj2 Py); reflexivity).
  assert (2 ^ Z.of_nat (64 * size x) * zm z = zm x + Z.of_N k * zm y)%Z as V'. { unfold zm. apply (f_equal Z.of_N) in V. rewrite N2Z.inj_mul, N2Z.inj_pow, N2Z.inj_add, N2Z.inj_mul, nat_N_Z in V. exact V. }
  destruct (N.leb_spec (magnitude y) (magnitude z)) as [C|C].
  - destruct (pos_sub z y Pz Py C) as (t & Et & Pt & Mt). exists t, (Z.of_N k - 2 ^ Z.of_nat (64 * size x))%Z. split; [exact Et|]. split; [exact Pt|]. assert (zm t = zm z - zm y)%Z as -> by (unfold zm; lia). lia.
  - exists z, (Z.of_N k). split; [reflexivity|]. split; [exact Pz|exact V'].
Qed.
Lemma montgomery_ok : forall x y, pos x -> pos y -> N.odd (magnitude y) = true -> magnitude y < B -> trimmed_digits y -> exists r, montgomery x y = Done (Some r) /\ pos r /\ magnitude r = magnitude x mod magnitude y.
Proof.
  intros x y Px Py Oy Ly Ty. assert (magnitude y <> 0) as Y0 by (intro Z; rewrite Z in Oy; discriminate). unfold montgomery. destruct (mont_ok x y Px Py Oy) as (z & k & E & Pz & V). rewrite E. cbn [obind].
  destruct (pos_lsh (num 1) (64 * size x) (pos_num 1 ltac:(reflexivity))) as [P1 M1]. rewrite mag_num, N.mul_1_r in M1. destruct (mp_div_ok _ y P1 Py Y0) as (q1 & r1 & E1 & _ & Pr1 & V1 & _). rewrite E1. cbn [obind]. destruct (pos_mul z r1 Pz Pr1) as [P2 M2].
  destruct (mp_div_ok _ y P2 Py Y0) as (q2 & r2 & E2 & _ & Pr2 & V2 & L2). rewrite E2. cbn [obind]. specialize (L2 Ty (one_digit_leads _ _ Ly)).
  assert (magnitude r2 = magnitude x mod magnitude y) as R.
  { apply N2Z.inj. rewrite N2Z.inj_mod. fold (zm r2) (zm x) (zm y). apply Zmod_unique with (zm z * zm q1 + zm q2 - k)%Z; [unfold zm; lia|].
    rewrite M1 in V1. rewrite M2 in V2. apply (f_equal Z.of_N) in V1. apply (f_equal Z.of_N) in V2. rewrite N2Z.inj_pow, N2Z.inj_add, N2Z.inj_mul, nat_N_Z in V1. rewrite N2Z.inj_add, !N2Z.inj_mul in V2. fold (zm q1) (zm y) (zm r1) in V1. fold (zm q2) (zm y) (zm z) (zm r1) (zm r2) in V2.
    change (Z.of_N 2) with 2%Z in V1. rewrite V1 in V. clear - V V2. nia. }
  pose proof (proj1 Pr2) as W. apply wf1 in W. destruct W as [_ W]. destruct (strip (data r2)) as [|d s'] eqn:Es; [exists r2; split; [reflexivity|split; assumption]|]. rewrite <- Es.
  assert (length (strip (data r2)) = 1%nat) as L1.
  { assert (dv (data r2) <> 0) as Z by (intro Z; apply strip_nil in Z; congruence). destruct (strip_bounds _ W Z) as (S1 & S2 & _). destruct (length (strip (data r2))) as [|[|n]] eqn:El; [lia|reflexivity|exfalso]. rewrite <- mag in S2.
    assert (B ^ N.of_nat 1 <= magnitude r2) as G; [|change (N.of_nat 1) with 1 in G; rewrite N.pow_1_r in G; lia]. eapply N.le_trans; [|exact S2]. apply N.pow_le_mono_r; [apply B_nz|lia]. }
  rewrite L1. change (new_digits (8 * 1)) with 1%nat. change (Nat.ltb 1 1) with false. cbv iota. change (1 - 1)%nat with O. cbn [repeat]. rewrite app_nil_r. eexists. split; [reflexivity|]. split; [|rewrite mag; cbn [data]; rewrite strip_val, <- mag; exact R].
  split; [|reflexivity]. apply wf2. cbn [data]. split; [rewrite Es; discriminate|apply strip_wd, W].
Qed.
