(* Number theory on the multiprecision values. *)
From Verif Require Import Words MpModel MpModel2 MpSpec MpProofs MpProofs2 MpProofs3.
Open Scope N_scope.

Lemma odd_ok : forall a, well_formed a -> is_odd a = N.odd (magnitude a).
Proof.
  intros a W. apply wf1 in W. rewrite mag. unfold is_odd. destruct (data a) as [|d l]; [destruct W; congruence|]. cbn [hd digits_val]. rewrite <- N.bit0_odd.
  assert (B * dv l = 2 * (2 ^ 63 * dv l)) as ->. { rewrite B_eq. change (2 ^ 64) with (2 * 2 ^ 63). ring. } rewrite !N.bit0_odd, N.odd_add, N.odd_mul. cbn [N.odd andb xorb]. rewrite xorb_false_r. reflexivity.
Qed.
Lemma even_ok : forall a, well_formed a -> is_even a = N.even (magnitude a).
Proof. intros a W. unfold is_even. rewrite odd_ok, <- N.negb_odd by exact W. reflexivity. Qed.
Lemma assign_some : forall d s, well_formed s -> well_formed (assign (Some d) s) /\ neg (assign (Some d) s) = neg s /\ magnitude (assign (Some d) s) = magnitude s /\ size (assign (Some d) s) = Nat.max (size d) (size s).
Proof.
  intros d s W. apply wf1 in W. rewrite !mag. unfold assign. cbn [data neg]. split; [|split; [reflexivity|split]].
  - apply wf2. cbn [data]. split; [destruct (data s); [destruct W; congruence|discriminate]|]. apply wd_app; [apply W|apply wd_zeros].
  - apply dv_pad.
  - unfold size. cbn [data]. rewrite app_length, repeat_length. destruct (Nat.ltb_spec (length (data d)) (length (data s))); lia.
Qed.
Lemma pos_assign : forall d s, pos s -> pos (assign (Some d) s) /\ magnitude (assign (Some d) s) = magnitude s.
Proof. intros d s [W Ns]. destruct (assign_some d s W) as (A & C & D & _). split; [split; [exact A|congruence]|exact D]. Qed.
Lemma pos_rsh : forall a, pos a -> pos (mp_rsh a 1) /\ magnitude (mp_rsh a 1) = magnitude a / 2.
Proof. intros a [W _]. destruct (mp_rsh_ok a 1 W) as (A & C & D & _). split; [split; assumption|exact D]. Qed.
Lemma pos_lsh : forall a k, pos a -> pos (mp_lsh a k) /\ magnitude (mp_lsh a k) = 2 ^ N.of_nat k * magnitude a.
Proof. intros a k [W Na]. destruct (mp_lsh_ok a k W) as (A & C & D & _). split; [split; congruence|exact D]. Qed.
Lemma pos_mul : forall a b, pos a -> pos b -> pos (mp_mul (Some a) b) /\ magnitude (mp_mul (Some a) b) = magnitude a * magnitude b.
Proof. intros a b [Wa _] [Wb _]. destruct (mp_mul_ok a b Wa Wb) as (A & C & D & _). split; [split; assumption|exact D]. Qed.
Lemma pos_num : forall d, d < 2 ^ 64 -> pos (num d). Proof. intros d H. split; [apply wf_num; rewrite B_eq; exact H|reflexivity]. Qed.
Lemma pos_sub : forall a b, pos a -> pos b -> magnitude b <= magnitude a -> exists r, mp_sub (Some a) b = Done r /\ pos r /\ magnitude r = magnitude a - magnitude b.
Proof.
  intros a b [Wa Na] [Wb Nb] L. destruct (N.eq_dec (magnitude b) 0) as [Z|Z].
  - exists a. split; [apply mp_sub_zero_r, Z|]. split; [split; assumption|]. rewrite Z. lia.
  - destruct (mp_sub_ok a b Wa Wb) as (r & E & Wr & Nr & Mr & _); [lia|exact Z|]. assert (magnitude a <? magnitude b = false) as F by (apply N.ltb_ge, L). rewrite F in *. exists r. split; [exact E|]. split; [split; assumption|exact Mr].
Qed.
Lemma assign_pos : forall a, pos a -> assign None a = a. Proof. intros a [W _]. apply assign_none, W. Qed.
Lemma ne_zero : forall x, pos x -> mp_ne x (num 0) = negb (magnitude x =? 0).
Proof. intros x [W Nx]. unfold mp_ne. rewrite mp_eq_ok by (try exact W; apply wf_num; rewrite B_eq; reflexivity). rewrite mag_num, Nx. reflexivity. Qed.

(* ---- gcd *)
Lemma even_half : forall x, N.even x = true -> x = 2 * (x / 2). Proof. intros x H. apply N.even_spec in H. destruct H as [k ->]. rewrite (N.mul_comm 2 k), N.div_mul by discriminate. lia. Qed.
Lemma gcd_half : forall x y, N.odd y = true -> N.gcd (2 * x) y = N.gcd x y.
Proof.
  intros x y H. apply N.divide_antisym.
  - apply N.gcd_greatest; [|apply N.gcd_divide_r]. apply N.gauss with 2; [apply N.gcd_divide_l|]. set (d := N.gcd (2 * x) y).
    assert (N.divide d y) as D by apply N.gcd_divide_r. assert (N.divide (N.gcd d 2) 2) as D2 by apply N.gcd_divide_r. assert (N.divide (N.gcd d 2) y) as D3 by (eapply N.divide_trans; [apply N.gcd_divide_l|exact D]).
    pose proof (N.divide_pos_le _ 2 ltac:(reflexivity) D2) as L. destruct (N.eq_dec (N.gcd d 2) 1) as [E|E]; [exact E|]. destruct (N.eq_dec (N.gcd d 2) 0) as [Z|Z]; [apply N.gcd_eq_0_r in Z; discriminate|].
    assert (N.gcd d 2 = 2) as E2 by lia. rewrite E2 in D3. destruct D3 as [k ->]. rewrite N.odd_mul in H. rewrite andb_false_r in H. discriminate.
  - apply N.gcd_greatest; [|apply N.gcd_divide_r]. apply N.divide_mul_r, N.gcd_divide_l.
Qed.
Lemma odd_part_ok : forall fuel x, pos x -> magnitude x <> 0 -> (N.to_nat (magnitude x) <= fuel)%nat ->
  exists z, odd_part fuel x = Some z /\ pos z /\ N.odd (magnitude z) = true /\ magnitude z <= magnitude x /\ (N.odd (magnitude x) = true -> z = x) /\
    forall y, N.odd y = true -> N.gcd (magnitude x) y = N.gcd (magnitude z) y.
Proof.
  induction fuel as [|fuel IH]; intros x Px X0 F; [lia|]. cbn [odd_part]. rewrite even_ok by apply Px. destruct (N.even (magnitude x)) eqn:E.
  - destruct (pos_rsh x Px) as [P1 M1]. pose proof (even_half _ E) as H. set (h := magnitude x / 2) in *. destruct (IH (mp_rsh x 1)) as (z & Ez & Pz & Oz & Lz & _ & G); [exact P1|lia|lia|]. exists z. split; [exact Ez|]. split; [exact Pz|]. split; [exact Oz|]. split; [lia|]. split.
    + intro O. rewrite <- N.negb_even, E in O. discriminate.
    + intros y Hy. rewrite H. rewrite gcd_half by exact Hy. rewrite <- M1. apply G, Hy.
  - exists x. rewrite <- N.negb_even, E. repeat split; try reflexivity; try apply Px; lia.
Qed.
(* never ends on zero *)
Lemma odd_part_zero : forall fuel x, pos x -> magnitude x = 0 -> odd_part fuel x = None.
Proof. induction fuel as [|fuel IH]; intros x Px X0; [reflexivity|]. cbn [odd_part]. rewrite even_ok, X0 by apply Px. destruct (pos_rsh x Px) as [P1 M1]. apply IH; [exact P1|]. rewrite M1, X0. reflexivity. Qed.
Lemma gcd_diff : forall x y, y <= x -> N.gcd (x - y) y = N.gcd x y.
Proof. intros x y H. rewrite (N.gcd_comm (x - y)), (N.gcd_comm x). apply N.gcd_sub_diag_r, H. Qed.
Lemma odd_diff : forall x y, N.odd x = true -> N.odd y = true -> y <= x -> N.even (x - y) = true.
Proof. intros x y Hx Hy L. rewrite N.even_sub by exact L. rewrite <- !N.negb_odd, Hx, Hy. reflexivity. Qed.
Lemma gcd_loop_ok : forall fuel x y, pos x -> pos y -> magnitude y <> 0 -> (N.odd (magnitude x) = true \/ N.odd (magnitude y) = true) -> (N.to_nat (magnitude x + magnitude y) + 1 <= fuel)%nat ->
  exists z, gcd_loop fuel x y = Done (Some z) /\ pos z /\ magnitude z = N.gcd (magnitude x) (magnitude y).
Proof.
  induction fuel as [|fuel IH]; intros x y Px Py Y0 O F; [lia|]. cbn [gcd_loop]. rewrite ne_zero by exact Px. destruct (N.eqb_spec (magnitude x) 0) as [X0|X0]; cbn [negb].
  - exists y. split; [reflexivity|]. split; [exact Py|]. rewrite X0, N.gcd_0_l. reflexivity.
  - destruct (odd_part_ok (S fuel) x Px X0) as (x' & E1 & P1 & O1 & L1 & S1 & G1); [lia|]. rewrite E1. destruct (odd_part_ok (S fuel) y Py Y0) as (y' & E2 & P2 & O2 & L2 & S2 & G2); [lia|]. rewrite E2.
    assert (N.gcd (magnitude x) (magnitude y) = N.gcd (magnitude x') (magnitude y')) as G.
    { destruct O as [O|O]; [rewrite (S1 O) in *; rewrite N.gcd_comm, (G2 _ O), N.gcd_comm; reflexivity|rewrite (S2 O) in *; apply G1, O]. }
    rewrite G. rewrite mp_lt_ok, mp_ge_ok by (try apply P1; try apply P2; rewrite (proj2 P1), (proj2 P2); reflexivity). set (a := magnitude x') in *. set (b := magnitude y') in *.
    assert (a <> 0) as A0 by (intros Z; rewrite Z in O1; discriminate). assert (b <> 0) as B0 by (intros Z; rewrite Z in O2; discriminate).
    destruct (N.leb_spec b a) as [C|C].
    + assert (exists t, (if b <? a then mp_sub (Some x') y' else mp_sub (Some y') x') = Done t /\ pos t /\ magnitude t = a - b) as (t & Et & Pt & Mt).
      { destruct (N.ltb_spec b a) as [D|D]; [apply pos_sub; assumption|]. assert (a = b) as AB by lia. destruct (pos_sub y' x' P2 P1) as (t & H1 & H2 & H3); [unfold a, b in *; lia|]. exists t. split; [exact H1|]. split; [exact H2|]. unfold a, b in *. lia. }
      rewrite Et. cbn [obind]. destruct (pos_rsh t Pt) as [P3 M3]. destruct (pos_assign x' (mp_rsh t 1) P3) as [P4 M4]. pose proof (even_half _ (odd_diff a b O1 O2 C)) as H. rewrite M3, Mt in M4. set (h := (a - b) / 2) in *.
      destruct (IH (assign (Some x') (mp_rsh t 1)) y' P4 P2 B0 (or_intror O2)) as (z & Ez & Pz & Mz); [rewrite M4; fold b; lia|]. exists z. split; [exact Ez|]. split; [exact Pz|]. rewrite Mz, M4. fold b. rewrite <- (gcd_diff a b C), H. symmetry. apply gcd_half, O2.
    + assert (b <? a = false) as -> by (apply N.ltb_ge; lia). destruct (pos_sub y' x' P2 P1) as (t & Et & Pt & Mt); [unfold a, b in *; lia|]. rewrite Et. cbn [obind]. fold a b in Mt. destruct (pos_rsh t Pt) as [P3 M3]. destruct (pos_assign y' (mp_rsh t 1) P3) as [P4 M4].
      pose proof (even_half _ (odd_diff b a O2 O1 ltac:(lia))) as H. rewrite M3, Mt in M4. set (h := (b - a) / 2) in *.
      destruct (IH x' (assign (Some y') (mp_rsh t 1)) P1 P4) as (z & Ez & Pz & Mz); [lia|left; exact O1|rewrite M4; fold a; lia|]. exists z. split; [exact Ez|]. split; [exact Pz|]. rewrite Mz, M4. fold a. rewrite (N.gcd_comm a b), <- (gcd_diff b a ltac:(lia)), H, (N.gcd_comm a h). symmetry. apply gcd_half, O1.
Qed.
Lemma common_twos_ok : forall fuel x y g, pos x -> pos y -> pos g -> magnitude x <> 0 -> magnitude y <> 0 -> (N.to_nat (magnitude x) <= fuel)%nat ->
  exists x' y' g', common_twos fuel x y g = Some (x', y', g') /\ pos x' /\ pos y' /\ pos g' /\ magnitude x' <> 0 /\ magnitude y' <> 0 /\ magnitude x' <= magnitude x /\ magnitude y' <= magnitude y /\
    (N.odd (magnitude x') = true \/ N.odd (magnitude y') = true) /\ magnitude g' * N.gcd (magnitude x') (magnitude y') = magnitude g * N.gcd (magnitude x) (magnitude y).
Proof.
  induction fuel as [|fuel IH]; intros x y g Px Py Pg X0 Y0 F; [lia|]. cbn [common_twos]. rewrite !even_ok by (apply Px || apply Py). destruct (N.even (magnitude x) && N.even (magnitude y))%bool eqn:E.
  - apply andb_true_iff in E. destruct E as [Ex Ey]. apply even_half in Ex. apply even_half in Ey. destruct (pos_rsh x Px) as [P1 M1]. destruct (pos_rsh y Py) as [P2 M2]. destruct (pos_lsh g 1 Pg) as [P3 M3].
    set (hx := magnitude x / 2) in *. set (hy := magnitude y / 2) in *. change (2 ^ N.of_nat 1) with 2 in M3.
    destruct (IH (mp_rsh x 1) (mp_rsh y 1) (mp_lsh g 1) P1 P2 P3) as (x' & y' & g' & H & Q1 & Q2 & Q3 & Q4 & Q5 & Q6 & Q7 & Q8 & Q9); [lia|lia|lia|]. exists x', y', g'. split; [exact H|]. repeat (split; [assumption || lia|]). rewrite Q9, M1, M2, M3, Ex, Ey, N.gcd_mul_mono_l. ring.
  - exists x, y, g. split; [reflexivity|]. repeat (split; [assumption || lia|]). split; [|reflexivity]. apply andb_false_iff in E. rewrite <- !N.negb_even. destruct E as [E|E]; rewrite E; [left|right]; reflexivity.
Qed.
Lemma gcd_ok : forall a b fuel, pos a -> pos b -> magnitude a <> 0 -> magnitude b <> 0 -> (N.to_nat (magnitude a + magnitude b) + 1 <= fuel)%nat ->
  exists g, gcd fuel a b = Done (Some g) /\ pos g /\ magnitude g = N.gcd (magnitude a) (magnitude b).
Proof.
  intros a b fuel Pa Pb A0 B0 F. unfold gcd. rewrite !assign_pos by assumption. rewrite mp_gt_ok by (try apply Pa; try apply Pb; rewrite (proj2 Pa), (proj2 Pb); reflexivity).
  assert (forall x y, pos x -> pos y -> magnitude x <> 0 -> magnitude y <> 0 -> (N.to_nat (magnitude x + magnitude y) + 1 <= fuel)%nat ->
    exists g, match common_twos fuel x y (num 1) with None => Done None | Some (x, y, g) => obind (gcd_loop fuel x y) (fun r => Done (match r with Some y => Some (mp_mul (Some g) y) | None => None end)) end = Done (Some g) /\ pos g /\ magnitude g = N.gcd (magnitude x) (magnitude y)) as H.
  { clear. intros x y Px Py X0 Y0 F. destruct (common_twos_ok fuel x y (num 1) Px Py (pos_num 1 ltac:(reflexivity)) X0 Y0) as (x' & y' & g' & -> & Q1 & Q2 & Q3 & Q4 & Q5 & Q6 & Q7 & Q8 & Q9); [lia|].
    destruct (gcd_loop_ok fuel x' y' Q1 Q2 Q5 Q8) as (z & -> & Pz & Mz); [lia|]. cbn [obind]. destruct (pos_mul g' z Q3 Pz) as [P M]. eexists. split; [reflexivity|]. split; [exact P|]. rewrite M, Mz, Q9, mag_num. lia. }
  destruct (magnitude b <? magnitude a); [apply H; assumption|]. rewrite N.gcd_comm. apply H; try assumption. lia.
Qed.
Lemma gcd_zero : forall a b fuel, pos a -> pos b -> magnitude a = 0 \/ magnitude b = 0 -> gcd fuel a b = Done None.
Proof.
  intros a b fuel Pa Pb Z. unfold gcd. rewrite !assign_pos by assumption. rewrite mp_gt_ok by (try apply Pa; try apply Pb; rewrite (proj2 Pa), (proj2 Pb); reflexivity).
  assert (forall x y, pos x -> pos y -> magnitude y = 0 ->
    match common_twos fuel x y (num 1) with None => Done None | Some (x, y, g) => obind (gcd_loop fuel x y) (fun r => Done (match r with Some y => Some (mp_mul (Some g) y) | None => None end)) end = Done None) as H.
  { clear. intros x y Px Py Y0. assert (forall f x y g, pos x -> pos y -> magnitude y = 0 -> match common_twos f x y g with None => True | Some (x', y', _) => pos x' /\ pos y' /\ magnitude y' = 0 /\ magnitude x' <> 0 end) as C.
    { clear. induction f as [|f IH]; intros x y g Px Py Y0; [exact I|]. cbn [common_twos]. rewrite !even_ok by (apply Px || apply Py). rewrite Y0. cbn [N.even]. rewrite andb_true_r. destruct (N.even (magnitude x)) eqn:E.
      - destruct (pos_rsh x Px) as [P1 M1]. destruct (pos_rsh y Py) as [P2 M2]. apply IH; [exact P1|exact P2|]. rewrite M2, Y0. reflexivity.
      - split; [exact Px|]. split; [exact Py|]. split; [exact Y0|]. intro X0. rewrite X0 in E. discriminate. }
    specialize (C fuel x y (num 1) Px Py Y0). destruct (common_twos fuel x y (num 1)) as [[[x' y'] g']|]; [|reflexivity]. destruct C as (P1 & P2 & Y' & X'). destruct fuel as [|fuel]; [reflexivity|]. cbn [gcd_loop]. rewrite ne_zero by exact P1. destruct (N.eqb_spec (magnitude x') 0) as [X0|_]; [contradiction|]. cbn [negb].
    destruct (odd_part (S fuel) x'); [|reflexivity]. rewrite odd_part_zero by assumption. reflexivity. }
  destruct (N.ltb_spec (magnitude b) (magnitude a)); apply H; try assumption; lia.
Qed.

(* ---- modular inverse for odd moduli *)
Lemma pos_normal : forall a, pos a -> normal a /\ value a = Z.of_N (magnitude a).
Proof. intros a [W Na]. split; [apply normal_pos; assumption|]. unfold value. rewrite Na. reflexivity. Qed.
Lemma normal_nonneg : forall a, normal a -> (0 <= value a)%Z -> pos a /\ Z.of_N (magnitude a) = value a.
Proof.
  intros a [W Na] H. unfold value in *. destruct (neg a) eqn:E; [specialize (Na eq_refl); lia|]. split; [split; assumption|reflexivity].
Qed.
Definition zm (a : mp) : Z := Z.of_N (magnitude a).
Lemma half_mod_ok : forall r m, pos r -> pos m -> N.odd (magnitude m) = true -> exists h, half_mod r m = Done h /\ pos h /\ (2 * zm h = zm r \/ 2 * zm h = zm r + zm m)%Z.
Proof.
  intros r m Pr Pm Om. unfold half_mod. rewrite even_ok by apply Pr. destruct (N.even (magnitude r)) eqn:E.
  - destruct (pos_rsh r Pr) as [P M]. exists (mp_rsh r 1). split; [reflexivity|]. split; [exact P|]. left. unfold zm. rewrite M. apply even_half in E. lia.
  - destruct (pos_normal r Pr) as [N1 V1]. destruct (pos_normal m Pm) as [N2 V2]. destruct (add_s_ok r m N1 N2) as (t & Et & Nt & Vt). rewrite Et. cbn [obind]. destruct (normal_nonneg t Nt) as [Pt Mt]; [lia|]. destruct (pos_rsh t Pt) as [P M].
    exists (mp_rsh t 1). split; [reflexivity|]. split; [exact P|]. right. unfold zm. rewrite M. assert (magnitude t = magnitude r + magnitude m) as S by lia. assert (N.even (magnitude t) = true) as Ev by (rewrite S, N.even_add, E, <- N.negb_odd, Om; reflexivity). apply even_half in Ev. lia.
Qed.
Lemma sub_s_pos : forall a b, pos a -> pos b -> magnitude b <= magnitude a -> exists r, sub_s a b = Done r /\ pos r /\ zm r = (zm a - zm b)%Z.
Proof.
  intros a b Pa Pb L. destruct (pos_normal a Pa) as [N1 V1]. destruct (pos_normal b Pb) as [N2 V2]. destruct (sub_s_ok a b N1 N2) as (t & Et & Nt & Vt). destruct (normal_nonneg t Nt) as [Pt Mt]; [lia|]. exists t. split; [exact Et|]. split; [exact Pt|]. unfold zm. lia.
Qed.
Lemma sub_mod_ok : forall r s m, pos r -> pos s -> pos m -> (zm s <= zm r + zm m)%Z ->
  exists h, sub_mod r s m = Done h /\ pos h /\ zm h = (if zm r <? zm s then zm r - zm s + zm m else zm r - zm s)%Z.
Proof.
  intros r s m Pr Ps Pm L. unfold sub_mod, zm in *. destruct (pos_normal r Pr) as [N1 V1]. destruct (pos_normal s Ps) as [N2 V2]. destruct (pos_normal m Pm) as [N3 V3]. destruct (sub_s_ok r s N1 N2) as (t & Et & Nt & Vt). rewrite Et. cbn [obind].
  destruct (Z.ltb_spec (Z.of_N (magnitude r)) (Z.of_N (magnitude s))) as [C|C].
  - assert (neg t = true) as -> by (rewrite V1, V2 in Vt; unfold value in Vt; destruct (neg t); [reflexivity|lia]). destruct (add_s_ok t m Nt N3) as (h & Eh & Nh & Vh). destruct (normal_nonneg h Nh) as [Ph Mh]; [lia|]. exists h. split; [exact Eh|]. split; [exact Ph|]. lia.
  - destruct (normal_nonneg t Nt) as [Pt Mt]; [lia|]. rewrite (proj2 Pt). exists t. split; [reflexivity|]. split; [exact Pt|]. lia.
Qed.
Lemma odd_gauss : forall m x, N.odd m = true -> (Z.of_N m | 2 * x)%Z -> (Z.of_N m | x)%Z.
Proof.
  intros m x O D. apply N.odd_spec in O. destruct O as [k ->]. destruct D as [q D]. exists (q * (1 + Z.of_N k) - x)%Z. replace (Z.of_N (2 * k + 1)) with (2 * Z.of_N k + 1)%Z in * by lia. nia.
Qed.
Lemma inv_loop_ok : forall A m, pos m -> N.odd (magnitude m) = true -> forall fuel u v r s, pos u -> pos v -> pos r -> pos s -> magnitude u <> 0 -> (N.odd (magnitude u) = true \/ N.odd (magnitude v) = true) ->
  (zm r < zm m)%Z -> (zm s <= zm m)%Z -> (zm m | zm r * A - zm u)%Z -> (zm m | zm s * A - zm v)%Z -> (N.to_nat (magnitude u + magnitude v) + 1 <= fuel)%nat ->
  exists u' r', inv_loop fuel m u v r s = Done (Some (u', r')) /\ pos u' /\ pos r' /\ (zm r' < zm m)%Z /\ (zm m | zm r' * A - zm u')%Z /\ magnitude u' = N.gcd (magnitude u) (magnitude v).
Proof.
  intros A m Pm Om. induction fuel as [|fuel IH]; intros u v r s Pu Pv Pr Ps U0 O Lr Ls Dr Ds F; [lia|]. cbn [inv_loop].
  assert (is_zero v = (magnitude v =? 0)) as ->. { apply eq_true_iff_eq. rewrite is_zero_dv, N.eqb_eq, mag. reflexivity. }
  destruct (N.eqb_spec (magnitude v) 0) as [V0|V0]; [exists u, r; rewrite V0, N.gcd_0_r; repeat (split; [assumption || reflexivity|]); reflexivity|].
  rewrite !even_ok by (apply Pu || apply Pv). destruct (N.even (magnitude u)) eqn:Eu; [|destruct (N.even (magnitude v)) eqn:Ev].
  - assert (N.odd (magnitude v) = true) as Ov by (destruct O as [O|O]; [rewrite <- N.negb_even, Eu in O; discriminate|exact O]). destruct (half_mod_ok r m Pr Pm Om) as (h & Eh & Ph & Mh). rewrite Eh. cbn [obind]. destruct (pos_rsh u Pu) as [P1 M1]. apply even_half in Eu. set (k := magnitude u / 2) in *.
    destruct (IH (mp_rsh u 1) v h s P1 Pv Ph Ps) as (u' & r' & E & Q1 & Q2 & Q3 & Q4 & Q5); [lia|right; exact Ov|unfold zm in *; lia|exact Ls| |exact Ds|lia|].
    + apply odd_gauss; [exact Om|]. assert (zm u = 2 * zm (mp_rsh u 1))%Z as Zu by (unfold zm; rewrite M1; lia). destruct Mh as [Mh|Mh].
      * replace (2 * (zm h * A - zm (mp_rsh u 1)))%Z with (zm r * A - zm u)%Z by lia. exact Dr.
      * replace (2 * (zm h * A - zm (mp_rsh u 1)))%Z with ((zm r * A - zm u) + A * zm m)%Z by nia. apply Z.divide_add_r; [exact Dr|apply Z.divide_factor_r].
    + exists u', r'. split; [exact E|]. repeat (split; [assumption|]). rewrite Q5, M1, Eu. symmetry. apply gcd_half, Ov.
  - assert (N.odd (magnitude u) = true) as Ou by (rewrite <- N.negb_even, Eu; reflexivity). destruct (half_mod_ok s m Ps Pm Om) as (h & Eh & Ph & Mh). rewrite Eh. cbn [obind]. destruct (pos_rsh v Pv) as [P1 M1]. apply even_half in Ev. set (k := magnitude v / 2) in *.
    destruct (IH u (mp_rsh v 1) r h Pu P1 Pr Ph) as (u' & r' & E & Q1 & Q2 & Q3 & Q4 & Q5); [exact U0|left; exact Ou|exact Lr|unfold zm in *; lia|exact Dr| |lia|].
    + apply odd_gauss; [exact Om|]. assert (zm v = 2 * zm (mp_rsh v 1))%Z as Zu by (unfold zm; rewrite M1; lia). destruct Mh as [Mh|Mh].
      * replace (2 * (zm h * A - zm (mp_rsh v 1)))%Z with (zm s * A - zm v)%Z by lia. exact Ds.
      * replace (2 * (zm h * A - zm (mp_rsh v 1)))%Z with ((zm s * A - zm v) + A * zm m)%Z by nia. apply Z.divide_add_r; [exact Ds|apply Z.divide_factor_r].
    + exists u', r'. split; [exact E|]. repeat (split; [assumption|]). rewrite Q5, M1, Ev, N.gcd_comm, (N.gcd_comm (magnitude u)). symmetry. apply gcd_half, Ou.
  - assert (N.odd (magnitude u) = true) as Ou by (rewrite <- N.negb_even, Eu; reflexivity). assert (N.odd (magnitude v) = true) as Ov by (rewrite <- N.negb_even, Ev; reflexivity).
    rewrite mp_gt_ok by (try apply Pu; try apply Pv; rewrite (proj2 Pu), (proj2 Pv); reflexivity). destruct (N.ltb_spec (magnitude v) (magnitude u)) as [C|C].
    + destruct (sub_s_pos u v Pu Pv) as (t & Et & Pt & Mt); [lia|]. rewrite Et. cbn [obind]. destruct (sub_mod_ok r s m Pr Ps Pm) as (h & Eh & Ph & Mh); [unfold zm in *; lia|]. rewrite Eh. cbn [obind]. assert (magnitude t = magnitude u - magnitude v) as Mt' by (unfold zm in Mt; lia).
      destruct (IH t v h s Pt Pv Ph Ps) as (u' & r' & E & Q1 & Q2 & Q3 & Q4 & Q5); [lia|right; exact Ov|destruct (Z.ltb_spec (zm r) (zm s)); unfold zm in *; lia|exact Ls| |exact Ds|lia|].
      * replace (zm h * A - zm t)%Z with (((zm r * A - zm u) - (zm s * A - zm v)) + (if (zm r <? zm s)%Z then A else 0) * zm m)%Z by (rewrite Mh, Mt; destruct (zm r <? zm s)%Z; ring).
        apply Z.divide_add_r; [apply Z.divide_sub_r; assumption|apply Z.divide_factor_r].
      * exists u', r'. split; [exact E|]. repeat (split; [assumption|]). rewrite Q5, Mt'. apply gcd_diff. lia.
    + destruct (sub_s_pos v u Pv Pu) as (t & Et & Pt & Mt); [lia|]. rewrite Et. cbn [obind]. destruct (sub_mod_ok s r m Ps Pr Pm) as (h & Eh & Ph & Mh); [unfold zm in *; lia|]. rewrite Eh. cbn [obind]. assert (magnitude t = magnitude v - magnitude u) as Mt' by (unfold zm in Mt; lia).
      destruct (IH u t r h Pu Pt Pr Ph) as (u' & r' & E & Q1 & Q2 & Q3 & Q4 & Q5); [exact U0|left; exact Ou|exact Lr|destruct (Z.ltb_spec (zm s) (zm r)); unfold zm in *; lia|exact Dr| |lia|].
      * replace (zm h * A - zm t)%Z with (((zm s * A - zm v) - (zm r * A - zm u)) + (if (zm s <? zm r)%Z then A else 0) * zm m)%Z by (rewrite Mh, Mt; destruct (zm s <? zm r)%Z; ring).
        apply Z.divide_add_r; [apply Z.divide_sub_r; assumption|apply Z.divide_factor_r].
      * exists u', r'. split; [exact E|]. repeat (split; [assumption|]). rewrite Q5, Mt', N.gcd_comm, (N.gcd_comm (magnitude u)). apply gcd_diff. lia.
Qed.
Lemma modinv_rs_ok : forall a m fuel, pos a -> pos m -> N.odd (magnitude m) = true -> (N.to_nat (magnitude a + magnitude m) + 1 <= fuel)%nat ->
  exists r, modinv_rs fuel a m = Done (Some r) /\ pos r /\ magnitude r < magnitude m /\
    (N.gcd (magnitude a) (magnitude m) = 1 -> magnitude r * magnitude a mod magnitude m = 1 mod magnitude m) /\ (N.gcd (magnitude a) (magnitude m) <> 1 -> magnitude r = 0).
Proof.
  intros a m fuel Pa Pm Om F. assert (magnitude m <> 0) as M0 by (intro Z; rewrite Z in Om; discriminate). unfold modinv_rs. rewrite !assign_pos by assumption.
  destruct (inv_loop_ok (zm a) m Pm Om fuel m a (num 0) (num 1) Pm Pa (pos_num 0 ltac:(reflexivity)) (pos_num 1 ltac:(reflexivity)) M0 (or_introl Om)) as (u & r & E & Pu & Pr & Lr & Dr & Gu); [unfold zm; rewrite mag_num; lia|unfold zm; rewrite mag_num; lia|unfold zm; rewrite mag_num; exists (-1)%Z; lia|unfold zm; rewrite mag_num; exists 0%Z; lia|lia|].
  rewrite E. cbn [obind]. rewrite (N.gcd_comm (magnitude m)) in Gu. rewrite mp_gt_ok by (try apply Pu; try (apply wf_num; rewrite B_eq; reflexivity); rewrite (proj2 Pu); reflexivity). rewrite mag_num.
  assert (magnitude u <> 0) as U0 by (rewrite Gu; intro Z; apply N.gcd_eq_0_r in Z; contradiction).
  destruct (N.ltb_spec 1 (magnitude u)) as [C|C].
  - exists (num 0). split; [reflexivity|]. split; [apply pos_num; reflexivity|]. rewrite mag_num. split; [lia|]. split; [intro G; lia|reflexivity].
  - rewrite mp_gt_ok by (try apply Pr; try apply Pm; rewrite (proj2 Pr), (proj2 Pm); reflexivity). assert (magnitude m <? magnitude r = false) as -> by (apply N.ltb_ge; unfold zm in Lr; lia). rewrite (proj2 Pr). exists r. split; [reflexivity|]. split; [exact Pr|]. split; [unfold zm in Lr; lia|]. split; [|intro G; lia]. intros _.
    assert (magnitude u = 1) as U1 by lia. unfold zm in *. rewrite U1 in Dr. apply N2Z.inj. rewrite !N2Z.inj_mod, N2Z.inj_mul. destruct Dr as [q D]. replace (Z.of_N (magnitude r) * Z.of_N (magnitude a))%Z with (1 + q * Z.of_N (magnitude m))%Z by lia. apply Z.mod_add. lia.
Qed.
