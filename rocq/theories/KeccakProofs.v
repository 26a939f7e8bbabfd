(* The model of src/kryptos_keccak.c against FIPS 202. *)
From Verif Require Import Words EncSpec TaskModel CipherBase CipherLib RcProofs StreamModel HashModel HashProofs HashProofs3 KeccakModel KeccakSpec.
From Verif Require PresentProofs.
From Coq Require Import List Arith Lia PeanoNat Bool.
Open Scope N_scope.

Lemma rot_is : forall a r, keccak_rot a r = rotl 64 a r.
Proof. reflexivity. Qed.
(* ---- the four steps on lanes *)
Ltac five x := destruct x as [|[|[|[|[|x]]]]]; try lia.
Ltac shape st := do 25 (destruct st as [|? st]; [discriminate|]); destruct st; [|discriminate].
Definition column (st : list N) (x : nat) : N := xor (xor (xor (xor (lane st x 0) (lane st x 1)) (lane st x 2)) (lane st x 3)) (lane st x 4).
Lemma theta_lane : forall st x y, length st = 25%nat -> (x < 5)%nat -> (y < 5)%nat ->
  lane (theta st) x y = xor (lane st x y) (xor (column st ((x + 4) mod 5)) (keccak_rot (column st ((x + 1) mod 5)) 1)).
Proof. intros st x y L Hx Hy. shape st. five x; five y; reflexivity. Qed.
Lemma chi_lane : forall st x y, length st = 25%nat -> (x < 5)%nat -> (y < 5)%nat ->
  lane (chi st) x y = xor (lane st x y) (and (not64 (lane st ((x + 1) mod 5) y)) (lane st ((x + 2) mod 5) y)).
Proof. intros st x y L Hx Hy. shape st. five x; five y; reflexivity. Qed.
Lemma rho_pi_lane : forall st x y, length st = 25%nat -> (x < 5)%nat -> (y < 5)%nat ->
  lane (rho_pi st) x y = let x' := ((x + 3 * y) mod 5)%nat in if ((x =? 0) && (y =? 0))%nat%bool then lane st 0 0 else keccak_rot (lane st x' x) (N.of_nat (offset x' x mod 64)).
Proof. intros st x y L Hx Hy. shape st. five x; five y; reflexivity. Qed.
Lemma iota_lane : forall st r x y, length st = 25%nat -> (x < 5)%nat -> (y < 5)%nat ->
  lane (iota st r) x y = if ((x =? 0) && (y =? 0))%nat%bool then xor (lane st 0 0) (nth r keccak_rc 0) else lane st x y.
Proof. intros st r x y L Hx Hy. shape st. five x; five y; reflexivity. Qed.

(* ---- the state of the model and the array of the standard *)
Definition ok (st : list N) : Prop := length st = 25%nat /\ forall x y, (x < 5)%nat -> (y < 5)%nat -> lane st x y < 2 ^ 64.
Definition rep (st : list N) (A : nat -> nat -> nat -> bool) : Prop := forall x y z, (x < 5)%nat -> (y < 5)%nat -> (z < 64)%nat -> N.testbit (lane st x y) (N.of_nat z) = A x y z.
Lemma fold_length : forall {B} (f : list N -> B -> list N) l st, (forall s b, length (f s b) = length s) -> length (fold_left f l st) = length st.
Proof. intros B f l. induction l as [|b l IH]; intros st H; cbn [fold_left]; [reflexivity|]. rewrite IH by exact H. apply H. Qed.
Lemma set_length : forall st x y v, length (set_lane st x y v) = length st.
Proof. intros. apply upd_length. Qed.
Lemma theta_length : forall st, length (theta st) = length st.
Proof. intro st. unfold theta. apply fold_length. intros s b. apply fold_length. intros. apply set_length. Qed.
Lemma chi_length : forall st, length (chi st) = length st.
Proof. intro st. unfold chi. apply fold_length. intros s b. apply fold_length. intros. apply set_length. Qed.
Lemma rho_pi_length : forall st, length (rho_pi st) = length st.
Proof.
  intro st. unfold rho_pi. generalize (1%nat, 0%nat, lane st 1 0). generalize keccak_rot_off. intro l. revert st. induction l as [|r l IH]; intros st [[x y] s]; cbn [fold_left fst]; [reflexivity|]. rewrite IH. apply set_length.
Qed.
Lemma iota_length : forall st r, length (iota st r) = length st.
Proof. intros. apply set_length. Qed.
Lemma mod5 : forall n, (n mod 5 < 5)%nat.
Proof. intro n. apply Nat.mod_upper_bound. discriminate. Qed.
Lemma rot_bit : forall a r z, a < 2 ^ 64 -> (r < 64)%nat -> (z < 64)%nat -> N.testbit (keccak_rot a (N.of_nat r)) (N.of_nat z) = N.testbit a (N.of_nat ((z + 64 - r) mod 64)).
Proof.
  intros a r z Ha Hr Hz. rewrite rot_is, testbit_rotl by (assumption || lia). assert (N.of_nat z <? 64 = true) as -> by (apply N.ltb_lt; lia). cbn [andb]. destruct (N.ltb_spec (N.of_nat z) (N.of_nat r)) as [L|L].
  - rewrite Nat.mod_small by lia. f_equal. lia.
  - replace (z + 64 - r)%nat with (z - r + 1 * 64)%nat by lia. rewrite Nat.mod_add by discriminate. rewrite Nat.mod_small by lia. f_equal. lia.
Qed.
Lemma rot_lt : forall a r, a < 2 ^ 64 -> keccak_rot a r < 2 ^ 64.
Proof. intros. rewrite rot_is. apply rotl_lt. assumption. Qed.
Lemma column_lt : forall st x, ok st -> (x < 5)%nat -> column st x < 2 ^ 64.
Proof. intros st x [_ H] Hx. unfold column. repeat apply lxor_lt; apply H; lia. Qed.
Lemma theta_ok : forall st A, ok st -> rep st A -> ok (theta st) /\ rep (theta st) (Theta A).
Proof.
  intros st A K R. pose proof K as [L W]. assert (forall x z, (x < 5)%nat -> (z < 64)%nat -> N.testbit (column st x) (N.of_nat z) = xorb (xorb (xorb (xorb (A x 0%nat z) (A x 1%nat z)) (A x 2%nat z)) (A x 3%nat z)) (A x 4%nat z)) as C.
  { intros x z Hx Hz. unfold column. rewrite !N.lxor_spec, !R by lia. reflexivity. }
  split; [split; [rewrite theta_length; exact L|]|].
  - intros x y Hx Hy. rewrite theta_lane by assumption. apply lxor_lt; [apply W; assumption|]. apply lxor_lt; [|apply rot_lt]; apply column_lt; try exact K; apply mod5.
  - intros x y z Hx Hy Hz. rewrite theta_lane by assumption. rewrite !N.lxor_spec, R by assumption. change 1 with (N.of_nat 1). rewrite rot_bit; [|apply column_lt; [exact K|apply mod5]|lia|exact Hz]. rewrite !C by (try apply mod5; try exact Hz; apply Nat.mod_upper_bound; discriminate). unfold Theta. replace (z + 64 - 1)%nat with (z + 63)%nat by lia. reflexivity.
Qed.
Lemma rho_pi_ok : forall st A, ok st -> rep st A -> ok (rho_pi st) /\ rep (rho_pi st) (Pi (Rho A)).
Proof.
  intros st A K R. pose proof K as [L W]. split; [split; [rewrite rho_pi_length; exact L|]|].
  - intros x y Hx Hy. rewrite rho_pi_lane by assumption. cbv zeta. destruct ((x =? 0) && (y =? 0))%nat%bool; [apply W; lia|]. apply rot_lt. apply W; [apply mod5|exact Hx].
  - intros x y z Hx Hy Hz. rewrite rho_pi_lane by assumption. cbv zeta. unfold Pi, Rho. destruct ((x =? 0) && (y =? 0))%nat%bool eqn:E.
    + apply andb_true_iff in E. destruct E as [E1 E2]. apply Nat.eqb_eq in E1, E2. subst x y. change (offset _ _) with 0%nat. rewrite Nat.mod_0_l, Nat.sub_0_r by discriminate. replace (z + 64)%nat with (z + 1 * 64)%nat by lia. rewrite Nat.mod_add, (Nat.mod_small z) by lia. apply R; lia.
    + rewrite rot_bit; [|apply W; [apply mod5|exact Hx]|apply Nat.mod_upper_bound; discriminate|exact Hz]. apply R; [apply mod5|exact Hx|apply Nat.mod_upper_bound; discriminate].
Qed.
Lemma not_bit : forall a z, (z < 64)%nat -> N.testbit (not64 a) (N.of_nat z) = negb (N.testbit a (N.of_nat z)).
Proof. intros a z Hz. unfold notw. rewrite N.lxor_spec, N.ones_spec_low by lia. reflexivity. Qed.
Lemma chi_ok : forall st A, ok st -> rep st A -> ok (chi st) /\ rep (chi st) (Chi A).
Proof.
  intros st A K R. pose proof K as [L W]. split; [split; [rewrite chi_length; exact L|]|].
  - intros x y Hx Hy. rewrite chi_lane by assumption. apply lxor_lt; [apply W; assumption|]. apply land_lt_r. apply W; [apply mod5|exact Hy].
  - intros x y z Hx Hy Hz. rewrite chi_lane by assumption. rewrite N.lxor_spec, N.land_spec, not_bit, !R by (try apply mod5; assumption). reflexivity.
Qed.
Lemma rc_ok : forallb (fun r => forallb (fun z => Bool.eqb (N.testbit (nth r keccak_rc 0) (N.of_nat z)) (RC r z)) (seq 0 64)) (seq 0 24) = true.
Proof. vm_compute. reflexivity. Qed.
Lemma rc_bit : forall r z, (r < 24)%nat -> (z < 64)%nat -> N.testbit (nth r keccak_rc 0) (N.of_nat z) = RC r z.
Proof.
  intros r z Hr Hz. pose proof rc_ok as H. rewrite forallb_forall in H. specialize (H r ltac:(apply in_seq; lia)). cbv beta in H. rewrite forallb_forall in H. specialize (H z ltac:(apply in_seq; lia)). cbv beta in H. apply Bool.eqb_prop in H. exact H.
Qed.
Lemma rc_lt : forall r, nth r keccak_rc 0 < 2 ^ 64.
Proof.
  intro r. destruct (lt_dec r 24) as [H|H]; [|rewrite nth_overflow by (cbn; lia); reflexivity]. assert (Forall (fun x => x < 2 ^ 64) keccak_rc) as F by (repeat constructor). rewrite Forall_forall in F. apply F. apply nth_In. exact H.
Qed.
Lemma iota_ok : forall st A r, (r < 24)%nat -> ok st -> rep st A -> ok (iota st r) /\ rep (iota st r) (Iota r A).
Proof.
  intros st A r Hr K R. pose proof K as [L W]. split; [split; [rewrite iota_length; exact L|]|].
  - intros x y Hx Hy. rewrite iota_lane by assumption. destruct ((x =? 0) && (y =? 0))%nat%bool; [|apply W; assumption]. apply lxor_lt; [apply W; lia|apply rc_lt].
  - intros x y z Hx Hy Hz. rewrite iota_lane by assumption. unfold Iota. destruct ((x =? 0) && (y =? 0))%nat%bool eqn:E; [|apply R; assumption]. apply andb_true_iff in E. destruct E as [E1 E2]. apply Nat.eqb_eq in E1, E2. subst x y. rewrite N.lxor_spec, R, rc_bit by lia. reflexivity.
Qed.
Lemma round_ok : forall st A r, (r < 24)%nat -> ok st -> rep st A -> ok (iota (chi (rho_pi (theta st))) r) /\ rep (iota (chi (rho_pi (theta st))) r) (Rnd r A).
Proof.
  intros st A r Hr K R. destruct (theta_ok st A K R) as [K1 R1]. destruct (rho_pi_ok _ _ K1 R1) as [K2 R2]. destruct (chi_ok _ _ K2 R2) as [K3 R3]. exact (iota_ok _ _ r Hr K3 R3).
Qed.
Lemma fold_rel : forall (f : list N -> nat -> list N) (g : (nat -> nat -> nat -> bool) -> nat -> (nat -> nat -> nat -> bool)) l, (forall st A r, In r l -> ok st -> rep st A -> ok (f st r) /\ rep (f st r) (g A r)) ->
  forall st A, ok st -> rep st A -> ok (fold_left f l st) /\ rep (fold_left f l st) (fold_left g l A).
Proof.
  intros f g l. induction l as [|r l IH]; intros H st A K R; cbn [fold_left]; [split; assumption|]. destruct (H st A r (or_introl eq_refl) K R) as [K1 R1]. apply IH; try assumption. intros st' A' q Hq. apply H. right. exact Hq.
Qed.
(* the string of the standard *)
Definition str (st : list N) (S : list bool) : Prop := length S = 1600%nat /\ ok st /\ rep st (array S).
Lemma array_string : forall A x y z, (x < 5)%nat -> (y < 5)%nat -> (z < 64)%nat -> array (string A) x y z = A x y z.
Proof.
  intros A x y z Hx Hy Hz. unfold array, string. set (f := fun i => A (i / 64 mod 5)%nat (i / 64 / 5)%nat (i mod 64)%nat). assert (64 * (5 * y + x) + z < 1600)%nat as L by lia. rewrite (nth_indep _ false (f 0%nat)) by (rewrite map_length, seq_length; exact L). rewrite map_nth, seq_nth by exact L. unfold f. cbn [Nat.add].
  replace (64 * (5 * y + x) + z)%nat with (z + (5 * y + x) * 64)%nat by lia. rewrite Nat.div_add, Nat.mod_add by discriminate. rewrite (Nat.div_small z), (Nat.mod_small z) by exact Hz. cbn [Nat.add]. replace (5 * y + x)%nat with (x + y * 5)%nat by lia. rewrite Nat.mod_add, Nat.div_add by discriminate. rewrite Nat.mod_small, Nat.div_small by exact Hx. reflexivity.
Qed.
Lemma permutation_ok : forall st S, str st S -> str (keccak_r1600 st) (KECCAK_p S).
Proof.
  intros st S (L & K & R). unfold keccak_r1600, KECCAK_p. pose proof (fold_rel (fun st r => iota (chi (rho_pi (theta st))) r) (fun A ir => Rnd ir A) (seq 0 24)) as F.
  assert (forall st A r, In r (seq 0 24) -> ok st -> rep st A -> ok (iota (chi (rho_pi (theta st))) r) /\ rep (iota (chi (rho_pi (theta st))) r) (Rnd r A)) as H. { intros st' A r Hr. apply in_seq in Hr. apply round_ok. lia. }
  specialize (F H st (array S) K R). revert F. clear H. generalize (fold_left (fun st r => iota (chi (rho_pi (theta st))) r) (seq 0 24) st). generalize (fold_left (fun A ir => Rnd ir A) (seq 0 24) (array S)). intros A' st' [K1 R1].
  split; [unfold string; rewrite map_length, seq_length; reflexivity|]. split; [exact K1|]. intros x y z Hx Hy Hz. rewrite array_string by assumption. apply R1; assumption.
Qed.
