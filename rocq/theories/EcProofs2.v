From Verif Require Import Words EncSpec TaskModel MpModel MpModel2 MpSpec MpProofs MpProofs2 MpProofs3 MpProofs4 MpProofs5 MpProofs6 NumTheory PemModel PemSpec PemProofs PkLib RsaProofs DlModel DlProofs EcModel EcSpec EcMeaning EcProofs.
From Coq Require Import Znumtheory Lia.
Open Scope Z_scope.

(* ---- multiples *)
Section Group.
Context (p a b : Z) (Pp : prime p) (Od : p <> 2).
Lemma inverse_ex : forall w, ~ (p | w) -> exists i, (i * w) mod p = 1.
Proof.
  intros w N. pose proof (p_gt p Pp Od) as G. destruct (rel_prime_bezout p w (prime_rel_prime p Pp w N)) as [u v E]. exists v. replace (v * w) with (1 + (- u) * p) by lia. rewrite Z.mod_add by lia. apply Z.mod_1_l. lia.
Qed.
Lemma slope_ex : forall w y, ~ (p | w) -> exists s, (s * w) mod p = y mod p.
Proof.
  intros w y N. pose proof (p_gt p Pp Od) as G. destruct (inverse_ex w N) as [i E]. exists (y * i). rewrite <- Z.mul_assoc, <- Z.mul_mod_idemp_r, E by lia. rewrite Z.mul_1_r. reflexivity.
Qed.
Lemma sum_ex : forall P Q, on_curve p a b P -> on_curve p a b Q -> exists R, sum p a P Q R.
Proof.
  intros P Q HP HQ. pose proof (p_gt p Pp Od) as G. destruct P as [|x1 y1]; [exists Q; constructor|]. destruct Q as [|x2 y2]; [exists (Aff x1 y1); constructor|]. destruct (Z.eq_dec x1 x2) as [Ex|Ex].
  - destruct Ex. destruct (same_x p a b Pp Od x1 y1 y2 HP HQ) as [E|E]; [exists Inf; apply sum_opposite; exact E|]. destruct E. destruct (Z.eq_dec y1 0) as [->|Y]; [exists Inf; apply sum_opposite; apply Z.mod_0_l; lia|].
    destruct (slope_ex (2 * y1) (3 * x1 * x1 + a)) as [s Es]. { intro D. apply prime_mult in D; [|exact Pp]. destruct HP as (_ & B & _). destruct D as [D|D]; apply small_div in D; lia. }
    eexists. eapply (sum_tangent p a s); [exact Y|exact Es|reflexivity|reflexivity].
  - destruct (slope_ex (x1 - x2) (y1 - y2)) as [s Es]. { intro D. destruct HP as (B1 & _), HQ as (B2 & _). apply small_div in D; lia. }
    eexists. eapply (sum_chord p a s); [exact Ex|exact Es|reflexivity|reflexivity].
Qed.
Lemma times_on : forall P n R, on_curve p a b P -> times p a P n R -> on_curve p a b R.
Proof. intros P n R HP H. induction H as [|n A B HA IH S]; [exact I|]. exact (sum_on p a b Pp Od A P B IH HP S). Qed.
Lemma times_unique : forall P n R S, on_curve p a b P -> times p a P n R -> times p a P n S -> R = S.
Proof.
  intros P n. induction n as [|n IH]; intros R S HP H1 H2; inversion H1 as [|? A ? HA SA]; inversion H2 as [|? A2 ? HA2 SA2]; subst; [reflexivity|]. specialize (IH A A2 HP HA HA2). subst A2. exact (sum_unique p a b Pp Od A P R S (times_on P n A HP HA) HP SA SA2).
Qed.
Lemma times_ex : forall P n, on_curve p a b P -> exists R, times p a P n R.
Proof. intros P n HP. induction n as [|n [R IH]]; [exists Inf; constructor|]. destruct (sum_ex R P (times_on P n R HP IH) HP) as [T HT]. exists T. econstructor; [exact IH|exact HT]. Qed.
Context (As : associative p a b).
Lemma times_add : forall P i j A B C, on_curve p a b P -> times p a P i A -> times p a P j B -> sum p a A B C -> times p a P (i + j) C.
Proof.
  intros P i j. induction j as [|j IH]; intros A B C HP HA HB S.
  - inversion HB; subst. rewrite Nat.add_0_r. assert (C = A) as -> by (apply (sum_unique p a b Pp Od A Inf); [eapply times_on; eassumption|exact I|exact S|constructor]). exact HA.
  - inversion HB as [|? B' ? HB' SB]; subst. pose proof (times_on P i A HP HA) as OA. pose proof (times_on P j B' HP HB') as OB. destruct (sum_ex A B' OA OB) as [X SX]. specialize (IH A B' X HP HA HB' SX). pose proof (times_on _ _ _ HP IH) as OX. destruct (sum_ex X P OX HP) as [Y SY]. rewrite Nat.add_succ_r. econstructor; [exact IH|]. rewrite <- (As A B' P X B Y C OA OB HP SX SB SY S). exact SY.
Qed.
Lemma multiple_times : forall P n R, on_curve p a b P -> multiple p a P n R -> times p a P (N.to_nat n) R.
Proof.
  intros P n R HP H. induction H as [| |i j A B C HA IA HB IB S]; [constructor| |].
  - econstructor; [constructor|constructor].
  - rewrite N2Nat.inj_add. exact (times_add P _ _ A B C HP IA IB S).
Qed.
Lemma times_mul : forall G m P n R, on_curve p a b G -> times p a G m P -> times p a P n R -> times p a G (n * m) R.
Proof.
  intros G m P n R HG HP H. induction H as [|n A B HA IH S]; [constructor|]. cbn [Nat.mul]. rewrite Nat.add_comm. exact (times_add G _ _ A P B HG IH HP S).
Qed.
(* a point of order q *)
Lemma times_order : forall G q k R, on_curve p a b G -> times p a G q Inf -> times p a G (k * q) R -> R = Inf.
Proof.
  intros G q k. induction k as [|k IH]; intros R HG HQ H; [inversion H; reflexivity|]. cbn [Nat.mul] in H. destruct (times_ex G (k * q) HG) as [T HT]. assert (T = Inf) as -> by exact (IH T HG HQ HT).
  apply (times_unique G (q + k * q) R Inf HG H). exact (times_add G _ _ Inf Inf Inf HG HQ HT (sum_inf_l p a Inf)).
Qed.
Lemma times_mod : forall G q m n R S, on_curve p a b G -> times p a G q Inf -> q <> O -> (m mod q = n mod q)%nat -> times p a G m R -> times p a G n S -> R = S.
Proof.
  intros G q m n R S HG HQ Q0 E HR HS. assert (forall m R, times p a G m R -> times p a G (m mod q) R) as Red.
  { intros m0 R0 H. destruct (times_ex G (m0 mod q) HG) as [T HT]. destruct (times_ex G (m0 / q * q) HG) as [U HU]. assert (U = Inf) as -> by (eapply times_order; eassumption). pose proof (times_add G _ _ Inf T T HG HU HT (sum_inf_l p a T)) as X. replace (m0 / q * q + m0 mod q)%nat with m0 in X by (rewrite (Nat.mul_comm (m0 / q)); apply Nat.div_mod; exact Q0). rewrite (times_unique G m0 R0 T HG H X). exact HT. }
  apply Red in HR. apply Red in HS. rewrite E in HR. exact (times_unique G _ R S HG HR HS).
Qed.
End Group.

(* ---- random numbers *)
Open Scope N_scope.
Lemma u32_digits_ok : forall n mask rs ds rs', bytes rs -> rand_u32_digits n mask rs = Some (ds, rs') -> length ds = n /\ Forall (fun d => d < 2 ^ 64) ds /\ bytes rs'.
Proof.
  induction n as [|n IH]; intros mask rs ds rs' Hb E; cbn [rand_u32_digits] in E; [injection E as <- <-; split; [reflexivity|]; split; [constructor|exact Hb]|].
  destruct rs as [|x [|y [|z [|w rs]]]]; try discriminate. destruct (rand_u32_digits n mask rs) as [[l r]|] eqn:R; [|discriminate]. injection E as <- <-. do 4 (apply Forall_cons_iff in Hb; destruct Hb as [? Hb]). destruct (IH mask rs l r Hb R) as (L & F & B1). split; [cbn [length]; f_equal; exact L|]. split; [|exact B1]. constructor; [|exact F].
  apply land_lt. eapply N.lt_le_trans; [apply be_val_lt; repeat (constructor; try assumption)|]. vm_compute. discriminate.
Qed.
Lemma u32_loop_ok : forall fuel lo q n mask rs, pos q -> lo < 10 -> 1 <= lo -> (1 <= n)%nat -> bytes rs ->
  u32_loop fuel lo q n mask rs = Done None \/ exists d rs', u32_loop fuel lo q n mask rs = Done (Some (d, rs')) /\ pos d /\ lo <= magnitude d < magnitude q /\ bytes rs'.
Proof.
  induction fuel as [|fuel IH]; intros lo q n mask rs Pq L10 L1 Hn Hb; cbn [u32_loop]; [left; reflexivity|]. destruct (rand_u32_digits n mask rs) as [[ds rs1]|] eqn:R; [|left; reflexivity]. destruct (u32_digits_ok n mask rs ds rs1 Hb R) as (L & F & B1).
  assert (pos (mkMp false ds)) as Pd. { split; [|reflexivity]. split; [cbn [data]; intros ->; cbn in L; lia|exact F]. } set (d := mkMp false ds) in *. clearbody d.
  destruct ((if lo =? 1 then is_zero d else mp_lt d (num lo)) || mp_ge d q)%bool eqn:T; [apply IH; assumption|]. right. exists d, rs1. split; [reflexivity|]. split; [exact Pd|]. split; [|exact B1]. apply Bool.orb_false_iff in T. destruct T as [T1 T2].
  rewrite mp_ge_ok in T2 by (try apply Pd; try apply Pq; rewrite (proj2 Pd), ?(proj2 Pq); reflexivity). apply N.leb_gt in T2. split; [|exact T2]. destruct (N.eqb_spec lo 1) as [->|E1].
  - destruct (N.eq_dec (magnitude d) 0) as [Z|Z]; [|lia]. rewrite mag in Z. apply is_zero_dv in Z. congruence.
  - assert (pos (num lo)) as Pl by (apply num_pos; exact L10). rewrite mp_lt_ok in T1 by (try apply Pd; try apply Pl; rewrite (proj2 Pd), ?(proj2 Pl); reflexivity). rewrite mag_num in T1. apply N.ltb_ge in T1. exact T1.
Qed.
Lemma u32_random_ok : forall fuel lo q bits rs, pos q -> lo < 10 -> 1 <= lo -> bits <> 0 -> bytes rs ->
  u32_random fuel lo q bits rs = Done None \/ exists d rs', u32_random fuel lo q bits rs = Done (Some (d, rs')) /\ pos d /\ lo <= magnitude d < magnitude q /\ bytes rs'.
Proof.
  intros fuel lo q bits rs Pq L10 L1 B0 Hb. unfold u32_random. rewrite (proj2 (N.eqb_neq _ _) B0). apply u32_loop_ok; try assumption. destruct (N.of_nat (size q) <? N.shiftr bits 6); [apply wf_size, Pq|]. unfold new_digits. apply Nat.le_max_l.
Qed.

(* ---- ECDSA *)
Lemma dm_q : forall c G q g, domain c G q g -> small q.
Proof.
  intros c G q g D. pose proof (dm_n _ _ _ _ D) as Pq. pose proof (dm_1 _ _ _ _ D) as L. pose proof (primeN_ge _ (dm_prime _ _ _ _ D)) as Q. split; [exact Pq|]. assert (magnitude q < 2 ^ 64) as M by (pose proof (num_size q Pq L) as S; rewrite B_eq in S; exact S). split; [split; [clear - Q; lia|exact M]|]. apply one_trim; [exact Pq|exact L|clear - Q; lia].
Qed.
Definition common (c : curve) (G : pt) (q : mp) : list (list N * mp) := [(ecdsa_p, cp c); (ecdsa_a, ca c); (ecdsa_b, cb c); (ecdsa_q, q); (ecdsa_ax, px G); (ecdsa_ay, py G)].
Record ec_keys (c : curve) (G : pt) (q : mp) (g : point) (B : pt) (d : mp) (pub priv : list N) : Prop := mkEk {
  e_pub : forall h a, In (h, a) (common c G q ++ [(ecdsa_bx, px B); (ecdsa_by, py B)]) -> pem_get_mp h (Some pub) = Done (Some a);
  e_priv : forall h a, In (h, a) ((ecdsa_d, d) :: common c G q) -> pem_get_mp h (Some priv) = Done (Some a);
  e_d : pos d; e_range : 1 <= magnitude d < magnitude q;
  e_B : exists R, stands B R /\ on_curve (value (cp c)) (value (ca c)) (value (cb c)) R /\ times (value (cp c)) (value (ca c)) g (N.to_nat (magnitude d)) R }.
Definition ec_signature (x : list N) (r s : mp) (sg : list N) : Prop := pem_get ecdsa_x (Some sg) = Done (Some x) /\ pem_get_mp ecdsa_r (Some sg) = Done (Some r) /\ pem_get_mp ecdsa_s (Some sg) = Done (Some s).
Lemma ec_signature_ok : forall x r s p1 res sg, octets x -> x <> [] -> pos r -> pos s -> pem_put None ecdsa_x x = (Success, Some p1) -> put_mps (Some p1) [(ecdsa_r, r); (ecdsa_s, s)] = (res, Some sg) -> fits sg -> res = Success /\ ec_signature x r s sg.
Proof.
  intros x r s p1 res sg O Nx Pr Ps E1 E2 F. destruct (rel_put None empty_map ecdsa_x x rel_empty ltac:(hdr) eq_refl O Nx) as (p' & E' & R & _). rewrite E1 in E'. injection E' as <-. destruct (puts_longer _ _ _ _ E2) as (sg' & Eb & L). injection Eb as <-. assert (fits p1) as Ff by (unfold fits in *; lia). specialize (R Ff).
  assert (ecdsa_x <> ecdsa_r /\ ecdsa_x <> ecdsa_s /\ ecdsa_r <> ecdsa_s) as (D1 & D2 & D3) by (split; [|split]; vm_compute; discriminate).
  destruct (puts_rel [(ecdsa_r, r); (ecdsa_s, s)] (Some p1) _ res sg R) as [S1 R2]; try assumption.
  - repeat (apply Forall_cons; [cbn [fst snd]; split; [hdr|split; [rewrite insert_other by assumption; reflexivity|first [apply Pr|apply Ps]]]|]). constructor.
  - apply nodup_ok. vm_compute. reflexivity.
  - split; [exact S1|]. cbn [map_of fold_left fst snd] in R2. unfold ec_signature. split; [|split].
    + rewrite (get_ok _ _ ecdsa_x R2 ltac:(hdr)). rewrite insert_other, insert_other, insert_same by congruence. reflexivity.
    + apply (get_mp_ok _ _ ecdsa_r r R2 ltac:(hdr)); [|exact Pr]. rewrite insert_other, insert_same by congruence. reflexivity.
    + apply (get_mp_ok _ _ ecdsa_s s R2 ltac:(hdr)); [|exact Ps]. apply insert_same.
Qed.
Section Dom.
Context (c : curve) (G : pt) (q : mp) (g : point) (D : domain c G q g) (fuel : nat) (F1 : (N.to_nat (3 * magnitude (cp c)) + 1 <= fuel)%nat) (F2 : (2 * N.to_nat (magnitude q) <= fuel)%nat).
Notation p := (value (cp c)). Notation a := (value (ca c)). Notation b := (value (cb c)).
Let Sc := dm_c c G q g D.
Let Pp : prime p := Prm c Sc.
Let P2' : p <> 2%Z := P2 c Sc.
Lemma mul_times : forall m P e, stands m P -> on_curve p a b P -> pos e -> exists t T, ec_mul fuel m e c = Done (Some t) /\ stands t T /\ on_curve p a b T /\ times p a P (N.to_nat (magnitude e)) T.
Proof.
  intros m P e St On [We Ne]. destruct (mul_ok c Sc fuel F1 m P e St On We Ne) as (t & T & E & S1 & O1 & M). exists t, T. split; [exact E|]. split; [exact S1|]. split; [exact O1|]. exact (multiple_times p a b Pp P2' (dm_assoc _ _ _ _ D) P _ T On M).
Qed.
Lemma keys_ok : forall bits rs r1 pub r2 priv rs', bits <> 0 -> bytes rs -> ecdsa_key_pair fuel c G q bits rs = Done (Some ((r1, Some pub), (r2, Some priv), rs')) -> fits pub -> fits priv ->
  r1 = Success /\ r2 = Success /\ bytes rs' /\ exists B d, ec_keys c G q g B d pub priv.
Proof.
  clear F2. intros bits rs r1 pub r2 priv rs' B0 Hb E Fp Fq. unfold ecdsa_key_pair in E. assert (pos q) as Pq by apply (dm_q _ _ _ _ D). destruct (u32_random_ok fuel 1 q bits rs Pq ltac:(lia) ltac:(lia) B0 Hb) as [E1|(d & rs1 & E1 & Pd & Ld & B1)]; rewrite E1 in E; cbn [odo obind] in E; [discriminate|].
  destruct (mul_times G g d (dm_g _ _ _ _ D) (dm_on _ _ _ _ D) Pd) as (B & R & E2 & SB & OB & TB). rewrite E2 in E. cbn [odo obind] in E. destruct (stands_pos _ _ (dm_g _ _ _ _ D)) as [PGx PGy]. destruct (stands_pos _ _ SB) as [PBx PBy]. pose proof (Pcp c Sc) as Pcp. pose proof (dm_a _ _ _ _ D) as Pca. pose proof (dm_b _ _ _ _ D) as Pcb.
  destruct (put_mps None (common c G q ++ [(ecdsa_bx, px B); (ecdsa_by, py B)])) as [a1 a2] eqn:E3. destruct (put_mps None ((ecdsa_d, d) :: common c G q)) as [a3 a4] eqn:E4. unfold common in E3, E4. cbn [app] in E, E3, E4. rewrite E3, E4 in E. injection E as -> -> -> -> ->.
  destruct (puts_get (common c G q ++ [(ecdsa_bx, px B); (ecdsa_by, py B)]) r1 pub) as (S1 & G1 & _); [unfold common; cbn [app]; putsok|exact E3|exact Fp|]. destruct (puts_get ((ecdsa_d, d) :: common c G q) r2 priv) as (S2 & G2 & _); [unfold common; putsok|exact E4|exact Fq|].
  split; [exact S1|]. split; [exact S2|]. split; [exact B1|]. exists B, d. constructor; [exact G1|exact G2|exact Pd|exact Ld|]. exists R. split; [exact SB|]. split; [exact OB|exact TB].
Qed.
Lemma mod_small : forall x, pos x -> exists r, mp_mod x q = Done (Some r) /\ pos r /\ magnitude r = magnitude x mod magnitude q.
Proof.
  intros x Px. destruct (dm_q _ _ _ _ D) as (Pq & L & T). destruct (mp_mod_ok x q (proj1 Px) Pq ltac:(lia)) as (r & E & Pr & V & Lr). exists r. split; [exact E|]. split; [exact Pr|]. specialize (Lr ltac:(rewrite B_eq; apply L) T). rewrite (val_pos _ Px) in V. rewrite <- !N2Z.inj_mod in V. apply N2Z.inj in V. rewrite <- V. symmetry. apply N.mod_small. exact Lr.
Qed.
Lemma Psize : size (cp c) = 1%nat. Proof. apply Sc. Qed.
Lemma key_ne : forall h x l, pem_get_mp h (Some l) = Done (Some x) -> l <> [].
Proof. intros h x l E ->. unfold pem_get_mp, pem_get in E. cbn in E. discriminate. Qed.
Lemma sign_ok : forall hash hsz B d pub priv inp rs, ec_keys c G q g B d pub priv -> octets inp -> inp <> [] -> bytes (hash inp) -> be_val (hash inp) <> 0 -> 8 <= hsz -> bytes rs ->
  ecdsa_sign fuel hash hsz priv inp rs = Done None \/ (exists o rs', ecdsa_sign fuel hash hsz priv inp rs = Done (Some (ProcessError, o, rs'))) \/
  exists sg rs', ecdsa_sign fuel hash hsz priv inp rs = Done (Some (Success, Some sg, rs')) /\ (fits sg -> exists r s k R, ec_signature inp (px r) s sg /\ stands r R /\ on_curve p a b R /\ times p a g (N.to_nat k) R /\ pos s /\ 1 <= k < magnitude q /\
    magnitude s < magnitude q /\ magnitude s * k mod magnitude q = (magnitude d * magnitude (px r) + be_val (hash inp)) mod magnitude q).
Proof.
  intros hash hsz B d pub priv inp rs [K1 K2 Pd Kr _] O N0 Hh H0 Hsz Hr. pose proof (dm_prime _ _ _ _ D) as Q. pose proof (dm_odd _ _ _ _ D) as Q2. pose proof (primeN_ge _ Q) as Q3. pose proof (dm_q _ _ _ _ D) as Sq. assert (pos q) as Pq by apply Sq. unfold ecdsa_sign.
  assert (priv <> []) as Np by (apply (key_ne ecdsa_d d); apply K2; inlist). destruct inp as [|x0 x']; [congruence|]. set (inp := x0 :: x') in *. destruct priv as [|y0 y']; [congruence|]. set (priv := y0 :: y') in *. clearbody inp priv. unfold fetch_or.
  rewrite (K2 ecdsa_d d ltac:(unfold common; inlist)), (K2 ecdsa_p (cp c) ltac:(unfold common; inlist)). cbn [obind]. rewrite Psize. assert (8 * hsz <? 64 * N.of_nat 1 = false) as -> by (apply N.ltb_ge; change (N.of_nat 1) with 1; lia).
  rewrite (K2 ecdsa_a (ca c) ltac:(unfold common; inlist)), (K2 ecdsa_b (cb c) ltac:(unfold common; inlist)), (K2 ecdsa_q q ltac:(unfold common; inlist)), (K2 ecdsa_ax (px G) ltac:(unfold common; inlist)), (K2 ecdsa_ay (py G) ltac:(unfold common; inlist)). cbn [obind].
  destruct (u32_random_ok fuel 1 q (64 * N.of_nat 1) rs Pq ltac:(lia) ltac:(lia) ltac:(discriminate) Hr) as [E1|(k & rs1 & E1 & Pk & Lk & B1)]; rewrite E1; cbn [odo obind]; [left; reflexivity|].
  assert (mkCurve (ca c) (cb c) (cp c) = c) as -> by (destruct c; reflexivity). assert (mkPt (px G) (py G) = G) as -> by (destruct G; reflexivity).
  destruct (mul_times G g k (dm_g _ _ _ _ D) (dm_on _ _ _ _ D) Pk) as (r & R & E2 & SR & OR & TR). rewrite E2. cbn [odo obind]. destruct (inverse_ok fuel k q Pk Sq Q Q2 ltac:(lia) F2) as (ki & E3 & Pki & Lki & Iki). rewrite E3. cbn [odo obind].
  assert (hash inp <> []) as Hn by (intro Z; rewrite Z in H0; apply H0; reflexivity). destruct (raw_ok (hash inp) Hh Hn) as (h & E5 & Nh & Mh & Wh & _). rewrite E5. destruct (stands_pos r R SR) as [Prx Pry]. destruct (pos_mul d (px r) Pd Prx) as [Pdr Mdr]. destruct (mp_add_ok h (mp_mul (Some d) (px r)) Wh (proj1 Pdr)) as (u & E6 & Nu & Mu & Wu & _); [rewrite Mh; clear - H0; lia|]. rewrite E6. cbn [obind]. assert (pos u) as Pu by (split; [exact Wu|rewrite Nu; exact Nh]).
  destruct (pos_mul u ki Pu Pki) as [Puk Muk]. destruct (mod_small _ Puk) as (s & E7 & Ps & Ms). unfold omod. rewrite E7. cbn [obind]. destruct (rel_put None empty_map ecdsa_x inp rel_empty ltac:(hdr) eq_refl O N0) as (p1 & E8 & _). rewrite E8. destruct (put_mps (Some p1) [(ecdsa_r, px r); (ecdsa_s, s)]) as [res o] eqn:E9. destruct (puts_longer _ _ _ _ E9) as (sg & Eo & _). rewrite Eo in E9 |- *. clear Eo o.
  right. assert (magnitude s * magnitude k mod magnitude q = (magnitude d * magnitude (px r) + be_val (hash inp)) mod magnitude q) as V.
  { clear - Ms Muk Mu Mdr Mh Iki Q3. rewrite Ms, N.mul_mod_idemp_l, Muk, Mu, Mdr, Mh by lia. rewrite (N.add_comm (be_val _)). set (aa := magnitude d * magnitude (px r) + be_val (hash inp)). clearbody aa. rewrite <- N.mul_assoc, N.mul_mod, Iki, <- N.mul_mod by lia. rewrite N.mul_1_r. reflexivity. }
  assert (fits sg -> res = Success /\ ec_signature inp (px r) s sg) as SG by (intro Fs; apply (ec_signature_ok inp (px r) s p1 res sg); assumption).
  destruct res; try (left; eexists; eexists; reflexivity). right. exists sg, rs1. split; [reflexivity|]. intro Fs. destruct (SG Fs) as [_ S2]. exists r, s, (magnitude k), R. split; [exact S2|]. split; [exact SR|]. split; [exact OR|]. split; [exact TR|]. split; [exact Ps|]. split; [exact Lk|]. split; [rewrite Ms; apply N.mod_lt; clear - Q3; lia|exact V].
Qed.
Lemma verify_ok : forall hash hsz B d pub priv x r R s k sg, ec_keys c G q g B d pub priv -> ec_signature x (px r) s sg -> x <> [] -> bytes (hash x) -> hash x <> [] -> 8 <= hsz -> stands r R -> on_curve p a b R -> times p a g (N.to_nat k) R -> pos s -> 0 < magnitude s < magnitude q ->
  magnitude s * k mod magnitude q = (magnitude d * magnitude (px r) + be_val (hash x)) mod magnitude q -> ecdsa_verify fuel hash hsz pub sg = Done (Some (Success, Some x, [])).
Proof.
  intros hash hsz B d pub priv x r R s k sg [K1 K2 Pd Kr (RB & SB & OB & TB)] (S1 & S2 & S3) N0 Hh H0 Hsz SR OR TR Ps Ls V. pose proof (dm_prime _ _ _ _ D) as Q. pose proof (dm_odd _ _ _ _ D) as Q2. pose proof (primeN_ge _ Q) as Q3. pose proof (dm_q _ _ _ _ D) as Sq. assert (pos q) as Pq by apply Sq. unfold ecdsa_verify.
  assert (pub <> []) as Np by (apply (key_ne ecdsa_p (cp c)); apply K1; unfold common; inlist). assert (sg <> []) as Ns by (apply (key_ne ecdsa_s s); exact S3). destruct sg as [|x0 x']; [congruence|]. set (sg := x0 :: x') in *. destruct pub as [|y0 y']; [congruence|]. set (pub := y0 :: y') in *. clearbody sg pub. unfold fetch_or.
  assert (forall h v, In (h, v) (common c G q ++ [(ecdsa_bx, px B); (ecdsa_by, py B)]) -> pem_get_mp h (Some pub) = Done (Some v)) as K by exact K1. unfold common in K. cbn [app] in K.
  rewrite (K ecdsa_p (cp c) ltac:(inlist)), (K ecdsa_a (ca c) ltac:(inlist)), (K ecdsa_b (cb c) ltac:(inlist)). cbn [obind]. rewrite Psize. assert (8 * hsz <? 64 * N.of_nat 1 = false) as -> by (apply N.ltb_ge; change (N.of_nat 1) with 1; lia).
  rewrite (K ecdsa_q q ltac:(inlist)), (K ecdsa_ax (px G) ltac:(inlist)), (K ecdsa_ay (py G) ltac:(inlist)), (K ecdsa_bx (px B) ltac:(inlist)), (K ecdsa_by (py B) ltac:(inlist)), S2, S3, S1. cbn [obind]. destruct x as [|m0 m']; [congruence|]. set (x := m0 :: m') in *. clearbody x.
  destruct (inverse_ok fuel s q Ps Sq Q Q2 Ls F2) as (w & E1 & Pw & Lw & Iw). rewrite E1. cbn [odo obind]. destruct (raw_ok (hash x) Hh H0) as (h & E3 & Nh & Mh & Wh & _). rewrite E3. rewrite (assign_pos w Pw). destruct (stands_pos r R SR) as [Prx Pry].
  unfold omod. destruct (pos_mul w h Pw (conj Wh Nh)) as [Pwh Mwh]. destruct (mod_small _ Pwh) as (u1 & E4 & Pu1 & Mu1). rewrite E4. cbn [obind]. destruct (pos_mul w (px r) Pw Prx) as [Pwr Mwr]. destruct (mod_small _ Pwr) as (u2 & E5 & Pu2 & Mu2). rewrite E5. cbn [obind].
  assert (mkCurve (ca c) (cb c) (cp c) = c) as -> by (destruct c; reflexivity). assert (mkPt (px G) (py G) = G) as -> by (destruct G; reflexivity). assert (mkPt (px B) (py B) = B) as -> by (destruct B; reflexivity).
  pose proof (dm_on _ _ _ _ D) as OG. destruct (mul_times G g u1 (dm_g _ _ _ _ D) OG Pu1) as (AP & TA & E6 & SA & OA & MA). rewrite E6. cbn [odo obind]. destruct (mul_times B RB u2 SB OB Pu2) as (BP & TBP & E7 & SBP & OBP & MBP). rewrite E7. cbn [odo obind]. destruct (add_ok c Sc fuel F1 AP BP TA TBP SA SBP OA OBP) as (P & T & E8 & ST & OT & Sm). rewrite E8. cbn [odo obind].
  assert (times p a g (N.to_nat (magnitude u1) + N.to_nat (magnitude u2) * N.to_nat (magnitude d)) T) as TT.
  { refine (times_add p a b Pp P2' (dm_assoc _ _ _ _ D) g _ _ TA TBP T OG MA _ Sm). exact (times_mul p a b Pp P2' (dm_assoc _ _ _ _ D) g _ RB _ TBP OG TB MBP). }
  assert (T = R) as ->.
  { refine (times_mod p a b Pp P2' (dm_assoc _ _ _ _ D) g (N.to_nat (magnitude q)) _ (N.to_nat k) T R OG (dm_order _ _ _ _ D) _ _ TT TR); [clear - Q3; lia|].
    rewrite <- !N2Nat.inj_mul, <- N2Nat.inj_add, <- !N2Nat.inj_mod. f_equal. clear - V Mu1 Mu2 Mwh Mwr Mh Iw Q3. rewrite Mu1, Mu2, Mwh, Mwr, Mh. set (e := be_val (hash x)) in *. set (rr := magnitude (px r)) in *. clearbody e rr. set (n := magnitude q) in *. set (ww := magnitude w) in *. set (ss := magnitude s) in *. set (dd := magnitude d) in *. clearbody n ww ss dd. clear - V Iw Q3. assert (n <> 0) as Z by lia. clear Q3.
    rewrite N.add_mod, N.mod_mod, N.mul_mod_idemp_l, <- N.add_mod by exact Z. replace (ww * e + ww * rr * dd) with (ww * (dd * rr + e)) by ring. rewrite N.mul_mod, <- V, <- N.mul_mod by exact Z. rewrite N.mul_assoc, N.mul_mod, Iw, <- N.mul_mod by exact Z. rewrite N.mul_1_l. reflexivity. }
  destruct (stands_pos P R ST) as [PPx _]. rewrite (eq_val _ _ PPx Prx). assert (value (px P) = value (px r)) as ->; [|rewrite Z.eqb_refl; reflexivity]. destruct ST as (_ & _ & _ & _ & ST). destruct SR as (_ & _ & _ & _ & SR). destruct R; destruct ST as [-> _]; destruct SR as [-> _]; reflexivity.
Qed.
(* the verdict on any signature with 0 < s < q *)
Definition x_of (P : point) : Z := match P with Inf => 0 | Aff x _ => x end.
Lemma verdict : forall hash hsz B RB key x r s sg w, (forall h v, In (h, v) (common c G q ++ [(ecdsa_bx, px B); (ecdsa_by, py B)]) -> pem_get_mp h (Some key) = Done (Some v)) -> stands B RB -> on_curve p a b RB -> ec_signature x r s sg -> x <> [] -> bytes (hash x) -> hash x <> [] -> 8 <= hsz -> 0 < magnitude s < magnitude q -> w * magnitude s mod magnitude q = 1 ->
  exists TA TB T, times p a g (N.to_nat (w * be_val (hash x) mod magnitude q)) TA /\ times p a RB (N.to_nat (w * magnitude r mod magnitude q)) TB /\ sum p a TA TB T /\
  ecdsa_verify fuel hash hsz key sg = Done (Some (if (x_of T =? Z.of_N (magnitude r))%Z then (Success, Some x, []) else (InvalidSignature, None, []))).
Proof.
  intros hash hsz B RB pub x r s sg w0 K SB OB (S1 & S2 & S3) N0 Hh H0 Hsz Ls W. pose proof (get_mp_pos _ _ _ S2) as Pr. pose proof (get_mp_pos _ _ _ S3) as Ps. pose proof (dm_prime _ _ _ _ D) as Q. pose proof (dm_odd _ _ _ _ D) as Q2. pose proof (primeN_ge _ Q) as Q3. pose proof (dm_q _ _ _ _ D) as Sq. assert (pos q) as Pq by apply Sq. unfold ecdsa_verify. unfold common in K. cbn [app] in K.
  assert (pub <> []) as Np by (apply (key_ne ecdsa_p (cp c)); apply K; inlist). assert (sg <> []) as Ns by (apply (key_ne ecdsa_s s); exact S3). destruct sg as [|x0 x']; [congruence|]. set (sg := x0 :: x') in *. destruct pub as [|y0 y']; [congruence|]. set (pub := y0 :: y') in *. clearbody sg pub. unfold fetch_or.
  rewrite (K ecdsa_p (cp c) ltac:(inlist)), (K ecdsa_a (ca c) ltac:(inlist)), (K ecdsa_b (cb c) ltac:(inlist)). cbn [obind]. rewrite Psize. assert (8 * hsz <? 64 * N.of_nat 1 = false) as -> by (apply N.ltb_ge; change (N.of_nat 1) with 1; lia).
  rewrite (K ecdsa_q q ltac:(inlist)), (K ecdsa_ax (px G) ltac:(inlist)), (K ecdsa_ay (py G) ltac:(inlist)), (K ecdsa_bx (px B) ltac:(inlist)), (K ecdsa_by (py B) ltac:(inlist)), S2, S3, S1. cbn [obind]. destruct x as [|m0 m']; [congruence|]. set (x := m0 :: m') in *. clearbody x.
  destruct (inverse_ok fuel s q Ps Sq Q Q2 Ls F2) as (w & E1 & Pw & Lw & Iw). rewrite E1. cbn [odo obind]. destruct (raw_ok (hash x) Hh H0) as (h & E3 & Nh & Mh & Wh & _). rewrite E3. rewrite (assign_pos w Pw).
  unfold omod. destruct (pos_mul w h Pw (conj Wh Nh)) as [Pwh Mwh]. destruct (mod_small _ Pwh) as (u1 & E4 & Pu1 & Mu1). rewrite E4. cbn [obind]. destruct (pos_mul w r Pw Pr) as [Pwr Mwr]. destruct (mod_small _ Pwr) as (u2 & E5 & Pu2 & Mu2). rewrite E5. cbn [obind].
  assert (mkCurve (ca c) (cb c) (cp c) = c) as -> by (destruct c; reflexivity). assert (mkPt (px G) (py G) = G) as -> by (destruct G; reflexivity). assert (mkPt (px B) (py B) = B) as -> by (destruct B; reflexivity).
  pose proof (dm_on _ _ _ _ D) as OG. destruct (mul_times G g u1 (dm_g _ _ _ _ D) OG Pu1) as (AP & TA & E6 & SA & OA & MA). rewrite E6. cbn [odo obind]. destruct (mul_times B RB u2 SB OB Pu2) as (BP & TBP & E7 & SBP & OBP & MBP). rewrite E7. cbn [odo obind]. destruct (add_ok c Sc fuel F1 AP BP TA TBP SA SBP OA OBP) as (P & T & E8 & ST & OT & Sm). rewrite E8. cbn [odo obind].
  assert (forall y, magnitude w * y mod magnitude q = w0 * y mod magnitude q) as WY.
  { clear - Iw W Q3. assert (magnitude q <> 0) as Z by lia. assert (magnitude w mod magnitude q = w0 mod magnitude q) as WW. { rewrite <- (N.mul_1_r w0), <- (N.mul_mod_idemp_r w0) by exact Z. assert (1 mod magnitude q = magnitude w * magnitude s mod magnitude q) as -> by (symmetry; exact Iw). rewrite N.mul_mod_idemp_r by exact Z. replace (w0 * (magnitude w * magnitude s)) with (magnitude w * (w0 * magnitude s)) by ring. rewrite <- (N.mul_mod_idemp_r (magnitude w)), W, N.mul_1_r by exact Z. reflexivity. }
    intro y. rewrite <- (N.mul_mod_idemp_l (magnitude w)), WW, N.mul_mod_idemp_l by exact Z. reflexivity. }
  rewrite Mu1, Mwh, Mh, WY in MA. rewrite Mu2, Mwr, WY in MBP. exists TA, TBP, T. split; [exact MA|]. split; [exact MBP|]. split; [exact Sm|].
  destruct (stands_pos P T ST) as [PPx _]. rewrite (eq_val _ _ PPx Pr). assert (value (px P) = x_of T) as ->. { destruct ST as (_ & _ & _ & _ & ST). destruct T; destruct ST as [-> _]; reflexivity. }
  rewrite (val_pos r Pr). destruct (_ =? _)%Z; reflexivity.
Qed.
End Dom.


(* ---- ECDSA: the signature with r = s = 0 *)
Lemma mul_zero : forall fuel m d c, pos d -> magnitude d = 0 -> ec_mul fuel m d c = Done (Some (mkPt (num 0) (num 0))).
Proof. intros fuel m d c Pd Z. unfold ec_mul. rewrite (eq_num d 0 Pd) by reflexivity. rewrite Z. reflexivity. Qed.
Lemma red_zero : forall p, pos p -> magnitude p <> 0 -> exists r, red (num 0) p = Done (Some r) /\ pos r /\ magnitude r = 0.
Proof.
  intros p Pp P0. destruct (barrett_exact (num 0) p ltac:(apply num_pos; lia) (proj1 Pp) (proj2 Pp) P0) as (r & E & Wr & Nr & _ & V). exists r. split; [exact E|]. split; [split; assumption|]. assert (pos r) as Pr by (split; assumption).
  assert (value r = value (num 0) mod value p)%Z as H by (apply V; left; split; [reflexivity|]; rewrite mag_num; lia). rewrite num_val, (val_pos _ Pr), (val_pos _ Pp) in H. change (Z.of_N 0) with 0%Z in H. rewrite Z.mod_0_l in H by lia. lia.
Qed.
Lemma mod_below : forall x q, pos x -> pos q -> magnitude x < magnitude q -> exists r, mp_mod x q = Done (Some r) /\ pos r /\ magnitude r = magnitude x.
Proof. intros x q Px Pq L. unfold mp_mod. rewrite (assign_pos x Px), (proj2 Px). destruct (div_below x q Px Pq L) as (t & r & E & Pr & Mr). rewrite E. exists r. split; [reflexivity|]. split; assumption. Qed.
Lemma ec_forgery : forall fuel hash hsz cc G B q key x r s sg, (forall h v, In (h, v) (common cc G q ++ [(ecdsa_bx, px B); (ecdsa_by, py B)]) -> pem_get_mp h (Some key) = Done (Some v)) ->
  magnitude (cp cc) <> 0 -> N.of_nat (size (cp cc)) * 8 <= hsz -> 1 < magnitude q -> N.odd (magnitude q) = true -> ec_signature x r s sg -> x <> [] -> bytes (hash x) -> hash x <> [] -> magnitude r = 0 -> magnitude s = 0 -> (N.to_nat (magnitude q) < fuel)%nat ->
  ecdsa_verify fuel hash hsz key sg = Done (Some (Success, Some x, [])).
Proof.
  intros fuel hash hsz cc G B q key x r s sg K P0 Hsz Q1 Oq (S1 & S2 & S3) N0 Hh H0 Mr Ms F. unfold common in K. cbn [app] in K. assert (pos (cp cc)) as Pp by (refine (get_mp_pos _ _ _ (K ecdsa_p _ _)); inlist). assert (pos q) as Pq by (refine (get_mp_pos _ _ _ (K ecdsa_q _ _)); inlist). pose proof (get_mp_pos _ _ _ S2) as Pr. pose proof (get_mp_pos _ _ _ S3) as Ps.
  unfold ecdsa_verify, fetch_or. assert (key <> []) as Np by (apply (key_ne ecdsa_p (cp cc)); apply K; inlist). assert (sg <> []) as Ns by (apply (key_ne ecdsa_s s); exact S3). destruct sg as [|x0 x']; [congruence|]. set (sg := x0 :: x') in *. destruct key as [|y0 y']; [congruence|]. set (key := y0 :: y') in *. clearbody sg key.
  rewrite (K ecdsa_p (cp cc) ltac:(inlist)), (K ecdsa_a (ca cc) ltac:(inlist)), (K ecdsa_b (cb cc) ltac:(inlist)). cbn [obind]. assert (8 * hsz <? 64 * N.of_nat (size (cp cc)) = false) as -> by (apply N.ltb_ge; lia).
  rewrite (K ecdsa_q q ltac:(inlist)), (K ecdsa_ax (px G) ltac:(inlist)), (K ecdsa_ay (py G) ltac:(inlist)), (K ecdsa_bx (px B) ltac:(inlist)), (K ecdsa_by (py B) ltac:(inlist)), S2, S3, S1. cbn [obind]. destruct x as [|m0 m']; [congruence|]. set (x := m0 :: m') in *. clearbody x.
  unfold modinv. rewrite odd_ok, Oq by apply Pq. destruct (modinv_rs_ok s q fuel Ps Pq Oq ltac:(rewrite Ms; lia)) as (si & E1 & Psi & _ & _ & Z). rewrite E1. cbn [odo obind]. assert (magnitude si = 0) as Zs by (apply Z; rewrite Ms, N.gcd_0_l; lia). destruct (raw_ok (hash x) Hh H0) as (h & E3 & Nh & Mh & Wh & _). rewrite E3. rewrite (assign_pos si Psi).
  unfold omod. destruct (pos_mul si h Psi (conj Wh Nh)) as [Pwh Mwh]. rewrite Zs, N.mul_0_l in Mwh. destruct (mod_below _ q Pwh Pq ltac:(lia)) as (u1 & E4 & Pu1 & Mu1). rewrite E4. cbn [obind]. destruct (pos_mul si r Psi Pr) as [Pwr Mwr]. rewrite Zs, N.mul_0_l in Mwr. destruct (mod_below _ q Pwr Pq ltac:(lia)) as (u2 & E5 & Pu2 & Mu2). rewrite E5. cbn [obind].
  rewrite (mul_zero fuel _ u1) by (exact Pu1 || lia). cbn [odo obind]. rewrite (mul_zero fuel _ u2) by (exact Pu2 || lia). cbn [odo obind]. unfold ec_add, ec_mod. cbn [px py]. assert (assign None (num 0) = num 0) as A0 by (apply assign_pos, num_pos; lia). rewrite A0. destruct (red_zero (cp cc) Pp P0) as (z & Ez & Pz & Mz). cbn [cp ca cb]. rewrite Ez. cbn [odo obind]. unfold is_inf. cbn [px py]. rewrite (eq_num z 0 Pz) by reflexivity. rewrite Mz, N.eqb_refl. cbn [andb odo obind px]. rewrite (assign_pos z Pz), (eq_pos z r Pz Pr), Mz, Mr. reflexivity.
Qed.

(* ---- ECDH *)
Lemma dec_undec_loop : forall fuel n acc, n < 10 ^ N.of_nat fuel -> n <> 0 \/ fuel <> O -> exists l, dec_loop fuel n acc = l ++ acc /\ undec l = n /\ (fuel <> O -> l <> []) /\ octets l.
Proof.
  induction fuel as [|fuel IH]; intros n acc L H; [cbn in L; lia|]. cbn [dec_loop]. assert (n mod 10 < 10) as M by (apply N.mod_lt; discriminate). assert (48 + n mod 10 < 256) as M2 by lia. destruct (N.ltb_spec n 10) as [S1|S1].
  - exists [48 + n mod 10]. split; [reflexivity|]. split; [|split; [discriminate|constructor; [exact M2|constructor]]]. cbn [undec fold_left]. rewrite N.mod_small by exact S1. lia.
  - destruct (IH (n / 10) ((48 + n mod 10) :: acc)) as (l & E & V & N0 & O).
    + apply N.div_lt_upper_bound; [discriminate|]. rewrite Nat2N.inj_succ, N.pow_succ_r' in L. exact L.
    + left. intro Z. apply N.div_small_iff in Z; [lia|discriminate].
    + exists (l ++ [48 + n mod 10]). split; [rewrite E, <- app_assoc; reflexivity|]. split; [|split; [intros _ Z; apply app_eq_nil in Z; destruct Z; discriminate|]].
      * unfold undec in *. rewrite fold_left_app, V. cbn [fold_left]. pose proof (N.div_mod n 10 ltac:(discriminate)). lia.
      * apply Forall_app. split; [exact O|]. constructor; [exact M2|constructor].
Qed.
Lemma dec_undec : forall n, n < 10 ^ 10 -> undec (dec n) = n /\ dec n <> [] /\ octets (dec n).
Proof. intros n L. destruct (dec_undec_loop 10 n [] L ltac:(right; discriminate)) as (l & E & V & N0 & O). unfold dec. rewrite E, app_nil_r. split; [exact V|]. split; [apply N0; discriminate|exact O]. Qed.

Definition hello (c : curve) (G : pt) (q : mp) (K : pt) : list (list N * mp) := [(ecdh_p, cp c); (ecdh_a, ca c); (ecdh_b, cb c); (ecdh_gx, px G); (ecdh_gy, py G); (ecdh_q, q); (ecdh_kx, px K); (ecdh_ky, py K)].
Lemma hello_ok : forall c G q K t p1 res msg, pos (cp c) -> pos (ca c) -> pos (cb c) -> pos q -> pos (px G) -> pos (py G) -> pos (px K) -> pos (py K) -> octets t -> t <> [] -> pem_put None ecdh_bits t = (Success, Some p1) -> put_mps (Some p1) (hello c G q K) = (res, Some msg) -> fits msg ->
  res = Success /\ pem_get ecdh_bits (Some msg) = Done (Some t) /\ forall h v, In (h, v) (hello c G q K) -> pem_get_mp h (Some msg) = Done (Some v).
Proof.
  intros c G q K t p1 res msg Pp Pa Pb Pq P1 P2 P3 P4 O Nt E1 E2 F. destruct (rel_put None empty_map ecdh_bits t rel_empty ltac:(hdr) eq_refl O Nt) as (p' & E' & R & _). rewrite E1 in E'. injection E' as <-. destruct (puts_longer _ _ _ _ E2) as (m' & Eb & L). injection Eb as <-. assert (fits p1) as Ff by (unfold fits in *; lia). specialize (R Ff).
  assert (forall h v, In (h, v) (hello c G q K) -> ecdh_bits <> h) as Ne. { intros h v I. unfold hello in I. cbn [In] in I. repeat (destruct I as [I|I]; [injection I as <- _; vm_compute; discriminate|]). destruct I. }
  assert (forall h v, In (h, v) (hello c G q K) -> pos v) as Pv. { intros h v I. unfold hello in I. cbn [In] in I. repeat (destruct I as [I|I]; [injection I as _ <-; assumption|]). destruct I. }
  assert (forall h v, In (h, v) (hello c G q K) -> good_header h) as Hh. { intros h v I. unfold hello in I. cbn [In] in I. repeat (destruct I as [I|I]; [injection I as <- _; hdr|]). destruct I. }
  assert (NoDup (map fst (hello c G q K))) as Nd by (apply nodup_ok; vm_compute; reflexivity).
  destruct (puts_rel (hello c G q K) (Some p1) _ res msg R) as [S1 R2]; try assumption.
  - apply Forall_forall. intros [h v] I. cbn [fst snd]. split; [exact (Hh h v I)|]. split; [|apply (Pv h v I)]. rewrite insert_other by (exact (Ne h v I)). reflexivity.
  - split; [exact S1|]. split.
    + rewrite (get_ok _ _ ecdh_bits R2 ltac:(hdr)). unfold hello. cbn [map_of fold_left fst snd]. rewrite !insert_other by (vm_compute; discriminate). rewrite insert_same. reflexivity.
    + intros h v I. apply (get_mp_ok _ _ h v R2 (Hh h v I)); [|exact (Pv h v I)]. apply map_of_present; assumption.
Qed.
Section Dh.
Context (c : curve) (G : pt) (q : mp) (g : point) (D : domain c G q g) (fuel : nat) (F1 : (N.to_nat (3 * magnitude (cp c)) + 1 <= fuel)%nat).
Notation p := (value (cp c)). Notation a := (value (ca c)). Notation b := (value (cb c)).
Lemma start_ok : forall bits rs, bits <> 0 -> bits < 2 ^ 31 -> bytes rs -> ecdh_start fuel c G q bits rs = Done None \/ exists r k o rs', ecdh_start fuel c G q bits rs = Done (Some (r, k, o, rs')) /\ bytes rs' /\ pos k /\
  2 <= magnitude k < magnitude q /\ forall msg, o = Some msg -> fits msg -> r = Success /\ pem_get ecdh_bits (Some msg) = Done (Some (dec bits)) /\
    exists K R, (forall h v, In (h, v) (hello c G q K) -> pem_get_mp h (Some msg) = Done (Some v)) /\ stands K R /\ on_curve p a b R /\ times p a g (N.to_nat (magnitude k)) R.
Proof.
  intros bits rs B0 B1 Hb. unfold ecdh_start. assert (pos q) as Pq by apply (dm_q _ _ _ _ D). destruct (u32_random_ok fuel 2 q bits rs Pq ltac:(lia) ltac:(lia) B0 Hb) as [E1|(k & rs1 & E1 & Pk & Lk & Hb1)]; rewrite E1; cbn [odo obind]; [left; reflexivity|].
  destruct (mul_times c G q g D fuel F1 G g k (dm_g _ _ _ _ D) (dm_on _ _ _ _ D) Pk) as (K & R & E2 & SK & OK & TK). rewrite E2. cbn [odo obind]. destruct (stands_pos _ _ (dm_g _ _ _ _ D)) as [PGx PGy]. destruct (stands_pos _ _ SK) as [PKx PKy]. pose proof (Pcp c (dm_c _ _ _ _ D)) as Pcp. pose proof (dm_a _ _ _ _ D) as Pca. pose proof (dm_b _ _ _ _ D) as Pcb.
  assert (bits < 10 ^ 10) as B2 by (eapply N.lt_trans; [exact B1|vm_compute; reflexivity]). destruct (dec_undec bits B2) as (_ & Nd & Od). destruct (rel_put None empty_map ecdh_bits (dec bits) rel_empty ltac:(hdr) eq_refl Od Nd) as (p1 & E3 & _). rewrite E3. fold (hello c G q K).
  destruct (put_mps (Some p1) (hello c G q K)) as [r o] eqn:E4. right. exists r, k. eexists. exists rs1. split; [reflexivity|]. split; [exact Hb1|]. split; [exact Pk|]. split; [exact Lk|]. intros msg Eo Fm. assert (r = Success) as -> by (destruct r; congruence || discriminate). subst o.
  destruct (hello_ok c G q K (dec bits) p1 Success msg) as (_ & H1 & H2); try assumption. split; [reflexivity|]. split; [exact H1|]. exists K, R. split; [exact H2|]. split; [exact SK|]. split; [exact OK|exact TK].
Qed.
Lemma answer_ok : forall bits msg K R k rs, bits <> 0 -> bits < 2 ^ 31 -> bytes rs -> pem_get ecdh_bits (Some msg) = Done (Some (dec bits)) -> (forall h v, In (h, v) (hello c G q K) -> pem_get_mp h (Some msg) = Done (Some v)) -> stands K R -> on_curve p a b R -> times p a g k R ->
  ecdh_answer fuel msg rs = Done None \/ exists k2 x2 y2 rs' o r, ecdh_answer fuel msg rs = Done (Some (r, x2, o, rs')) /\ bytes rs' /\ (r = Success \/ o = None) /\ forall ans, o = Some ans -> fits ans -> x2 = Some y2 /\
    exists K2 R2 S, pem_get_mp ecdh_kx (Some ans) = Done (Some (px K2)) /\ pem_get_mp ecdh_ky (Some ans) = Done (Some (py K2)) /\ stands K2 R2 /\ on_curve p a b R2 /\ times p a g k2 R2 /\ (exists T, stands T S /\ y2 = px T) /\ times p a g (k2 * k) S /\ N.of_nat k2 < magnitude q /\ 2 <= N.of_nat k2.
Proof.
  intros bits msg K R k rs B0 B1 Hb H1 H2 SK OK TK. unfold ecdh_answer. assert (pos q) as Pq by apply (dm_q _ _ _ _ D). assert (msg <> []) as Nm by (apply (key_ne ecdh_p (cp c)); apply H2; unfold hello; inlist). destruct msg as [|x0 x']; [congruence|]. set (msg := x0 :: x') in *. clearbody msg. unfold hello in H2. unfold efetch.
  rewrite (H2 ecdh_p (cp c) ltac:(inlist)), (H2 ecdh_a (ca c) ltac:(inlist)), (H2 ecdh_b (cb c) ltac:(inlist)), (H2 ecdh_gx (px G) ltac:(inlist)), (H2 ecdh_gy (py G) ltac:(inlist)), (H2 ecdh_q q ltac:(inlist)), H1, (H2 ecdh_kx (px K) ltac:(inlist)), (H2 ecdh_ky (py K) ltac:(inlist)). cbn [obind].
  assert (mkCurve (ca c) (cb c) (cp c) = c) as -> by (destruct c; reflexivity). assert (mkPt (px G) (py G) = G) as -> by (destruct G; reflexivity). assert (bits < 10 ^ 10) as B2 by (eapply N.lt_trans; [exact B1|vm_compute; reflexivity]). destruct (dec_undec bits B2) as (-> & _ & _).
  destruct (u32_random_ok fuel 2 q bits rs Pq ltac:(lia) ltac:(lia) B0 Hb) as [E1|(k2 & rs1 & E1 & Pk & Lk & Hb1)]; rewrite E1; cbn [odo obind]; [left; reflexivity|]. right. destruct (mul_times c G q g D fuel F1 G g k2 (dm_g _ _ _ _ D) (dm_on _ _ _ _ D) Pk) as (K2 & R2 & E2 & SK2 & OK2 & TK2). rewrite E2. cbn [odo obind]. destruct (stands_pos _ _ SK2) as [PKx PKy]. destruct (stands_pos _ _ SK) as [PXx PXy].
  rewrite !assign_pos by assumption. assert (mkPt (px K) (py K) = K) as -> by (destruct K; reflexivity). destruct (mul_times c G q g D fuel F1 K R k2 SK OK Pk) as (T & S & E3 & ST & OT & TT). rewrite E3. cbn [odo obind]. destruct (put_mps None [(ecdh_kx, px K2); (ecdh_ky, py K2)]) as [r o] eqn:E4.
  exists (N.to_nat (magnitude k2)). exists (match r with Success => Some (px T) | _ => None end), (px T), rs1, (match r with Success => o | _ => None end), r. split; [destruct r; reflexivity|]. split; [exact Hb1|]. split; [destruct r; auto|]. intros ans Eo Fa. assert (r = Success) as -> by (destruct r; congruence || discriminate). subst o. split; [reflexivity|].
  destruct (puts_get [(ecdh_kx, px K2); (ecdh_ky, py K2)] Success ans) as (_ & G1 & _); [putsok|exact E4|exact Fa|]. exists K2, R2, S. split; [apply G1; inlist|]. split; [apply G1; inlist|]. split; [exact SK2|]. split; [exact OK2|]. split; [exact TK2|]. split; [exists T; split; [exact ST|reflexivity]|]. split; [|clear - Lk; lia].
  exact (times_mul p a b (Prm c (dm_c _ _ _ _ D)) (P2 c (dm_c _ _ _ _ D)) (dm_assoc _ _ _ _ D) g k R _ S (dm_on _ _ _ _ D) TK TT).
Qed.
Lemma finish_ok : forall k inp K2 R2 k2, pos k -> pem_get_mp ecdh_kx (Some inp) = Done (Some (px K2)) -> pem_get_mp ecdh_ky (Some inp) = Done (Some (py K2)) -> stands K2 R2 -> on_curve p a b R2 -> times p a g k2 R2 ->
  exists T S, ecdh_finish fuel c k inp = Done (Some (Success, Some (px T))) /\ stands T S /\ times p a g (N.to_nat (magnitude k) * k2) S.
Proof.
  intros k inp K2 R2 k2 Pk G1 G2 SK OK TK. unfold ecdh_finish, efetch. rewrite G1, G2. cbn [obind]. destruct (stands_pos _ _ SK) as [PXx PXy]. rewrite !assign_pos by assumption. assert (mkPt (px K2) (py K2) = K2) as -> by (destruct K2; reflexivity). destruct (mul_times c G q g D fuel F1 K2 R2 k SK OK Pk) as (T & S & E3 & ST & OT & TT). rewrite E3. cbn [odo obind]. exists T, S. split; [reflexivity|]. split; [exact ST|].
  exact (times_mul p a b (Prm c (dm_c _ _ _ _ D)) (P2 c (dm_c _ _ _ _ D)) (dm_assoc _ _ _ _ D) g k2 R2 _ S (dm_on _ _ _ _ D) TK TT).
Qed.
End Dh.
