From Verif Require Import Words EncSpec TaskModel MpModel MpModel2 MpSpec MpProofs MpProofs2 MpProofs3 MpProofs4 MpProofs5 MpProofs6 NumTheory PemModel PemSpec PemProofs PkLib RsaModel.
From Coq Require Import Znumtheory.
Open Scope N_scope.

(* ---- the exponents *)
Lemma rsa_power : forall p q e d m, primeN p -> primeN q -> p <> q -> (e * d) mod ((p - 1) * (q - 1)) = 1 -> m ^ (e * d) mod (p * q) = m mod (p * q).
Proof.
  intros p q e d m Pp Pq Ne H. pose proof (primeN_ge p Pp) as G1. pose proof (primeN_ge q Pq) as G2. set (phi := (p - 1) * (q - 1)) in *. assert (phi <> 0) as F0 by (unfold phi; nia). pose proof (N.div_mod' (e * d) phi) as D. rewrite H in D. set (k := e * d / phi) in *. clearbody k.
  assert (forall r s, primeN r -> 2 <= r -> phi = (r - 1) * s -> (Z.of_N r | Z.of_N m ^ Z.of_N (e * d) - Z.of_N m)%Z) as F.
  { intros r s Pr Gr Hs. apply (fermat_power (Z.of_N r) (Z.of_N m) (Z.of_N (e * d)) (Z.of_N (s * k))); [exact Pr|lia|lia|]. rewrite D, Hs. rewrite N2Z.inj_add, !N2Z.inj_mul, N2Z.inj_sub by lia. change (Z.of_N 1) with 1%Z. ring. }
  pose proof (two_primes (Z.of_N p) (Z.of_N q) _ Pp Pq ltac:(intro E; apply N2Z.inj in E; contradiction) (F p (q - 1) Pp G1 eq_refl) (F q (p - 1) Pq G2 ltac:(unfold phi; lia))) as [t T].
  apply N2Z.inj. rewrite !N2Z.inj_mod, N2Z.inj_pow, (N2Z.inj_mul p q). replace (Z.of_N m ^ Z.of_N (e * d))%Z with (Z.of_N m + t * (Z.of_N p * Z.of_N q))%Z by lia. apply Z.mod_add. nia.
Qed.
(* ---- key pairs *)
Definition key_of (h1 : list N) (a : mp) (h2 : list N) (b : mp) : pem_map := insert (insert empty_map h1 (mp_image a)) h2 (mp_image b).
Lemma put2_ok : forall h1 a h2 b p, good_header h1 -> good_header h2 -> h1 <> h2 -> well_formed a -> well_formed b -> put2 h1 a h2 b = (Success, Some p) -> fits p -> rel (Some p) (key_of h1 a h2 b).
Proof.
  intros h1 a h2 b p G1 G2 Ne Wa Wb E F. unfold put2 in E. destruct (rel_put_mp None empty_map h1 a rel_empty G1 eq_refl Wa) as (p1 & E1 & R1 & _). rewrite E1 in E. unfold put2 in E.
  pose proof Wb as Wb'. assert (fits p1) as F1. { unfold pem_put_mp, pem_put in E. destruct (mp_image b) eqn:Ib; [discriminate|]. rewrite <- Ib in E. destruct (find_header (begin_mark h2) p1); [discriminate|]. destruct (EncModel.base64_encode (mp_image b)); [|discriminate]. injection E as <-. unfold fits in *. rewrite app_length in F. lia. }
  specialize (R1 F1). destruct (rel_put_mp (Some p1) _ h2 b R1 G2) as (p2 & E2 & R2 & _); [rewrite insert_other by exact Ne; reflexivity|exact Wb|]. rewrite E in E2. injection E2 as <-. apply R2. exact F.
Qed.
Ltac hdr := apply header_ok; vm_compute; reflexivity.
Lemma hn : good_header hdr_n. Proof. hdr. Qed.
Lemma he : good_header hdr_e. Proof. hdr. Qed.
Lemma hd_ : good_header hdr_d. Proof. hdr. Qed.
Lemma hc : good_header hdr_c. Proof. hdr. Qed.
Lemma hx : good_header hdr_x. Proof. hdr. Qed.
Lemma hs : good_header hdr_s. Proof. hdr. Qed.
Lemma draw_wf : forall n rs ds rs', bytes rs -> draw_digits n rs = Some (ds, rs') -> length ds = n /\ Forall (fun d => d < 2 ^ 64) ds /\ bytes rs'.
Proof.
  induction n as [|n IH]; intros rs ds rs' Hb E; cbn [draw_digits] in E; [injection E as <- <-; repeat split; [constructor|exact Hb]|]. destruct rs as [|a [|b [|c [|d rs]]]]; try discriminate. assert (bytes [a; b; c; d] /\ bytes rs) as [H4 Hr] by (change (a :: b :: c :: d :: rs) with ([a; b; c; d] ++ rs) in Hb; apply Forall_app in Hb; exact Hb).
  destruct (draw_digits n rs) as [[ds' rs'']|] eqn:Er; [|discriminate]. injection E as <- <-. destruct (IH rs ds' rs'' Hr Er) as (L & F & B2). split; [cbn [length]; lia|]. split; [|exact B2]. constructor; [|exact F]. pose proof (be_val_lt [a; b; c; d] H4) as V. change (256 ^ N.of_nat (length [a; b; c; d])) with (2 ^ 32) in V. unfold sext32. destruct (_ <? _); [eapply N.lt_trans; [exact V|reflexivity]|]. change (2 ^ 64) with (2 ^ 64 - 2 ^ 32 + 2 ^ 32). apply N.add_lt_mono_l. exact V.
Qed.
(* ---- more fuel gives the same gcd *)
Lemma odd_part_more : forall f k x r, odd_part f x = Some r -> odd_part (f + k) x = Some r.
Proof. induction f as [|f IH]; intros k x r E; [discriminate|]. cbn [odd_part Nat.add] in *. destruct (is_even x); [apply IH; exact E|exact E]. Qed.
Lemma common_twos_more : forall f k x y g r, common_twos f x y g = Some r -> common_twos (f + k) x y g = Some r.
Proof. induction f as [|f IH]; intros k x y g r E; [discriminate|]. cbn [common_twos Nat.add] in *. destruct (_ && _)%bool; [apply IH; exact E|exact E]. Qed.
Lemma gcd_loop_more : forall f k x y r, gcd_loop f x y = Done (Some r) -> gcd_loop (f + k) x y = Done (Some r).
Proof.
  induction f as [|f IH]; intros k x y r E; [discriminate|]. change (S f + k)%nat with (S (f + k)). cbn [gcd_loop] in *. destruct (mp_ne x (num 0)); [|exact E]. change (S (f + k)) with (S f + k)%nat.
  destruct (odd_part (S f) x) as [x'|] eqn:E1; [|discriminate]. rewrite (odd_part_more _ k _ _ E1). destruct (odd_part (S f) y) as [y'|] eqn:E2; [|discriminate]. rewrite (odd_part_more _ k _ _ E2).
  destruct (if mp_lt y' x' then _ else _) as [t|]; [|discriminate]. cbn [obind] in *. destruct (mp_ge x' y'); apply IH; exact E.
Qed.
Lemma gcd_sound : forall f a b g, pos a -> pos b -> magnitude a <> 0 -> magnitude b <> 0 -> gcd f a b = Done (Some g) -> pos g /\ magnitude g = N.gcd (magnitude a) (magnitude b).
Proof.
  intros f a b g Pa Pb A0 B0 E. set (k := (N.to_nat (magnitude a + magnitude b) + 1)%nat). destruct (gcd_ok a b (f + k) Pa Pb A0 B0 ltac:(unfold k; lia)) as (g' & E' & Pg & Mg). clearbody k.
  assert (gcd (f + k) a b = Done (Some g)) as E2. { unfold gcd in *. destruct (if mp_gt a b then _ else _) as [x y]. destruct (common_twos f x y (num 1)) as [[[x' y'] w]|] eqn:C; [|discriminate]. rewrite (common_twos_more _ k _ _ _ _ C). destruct (gcd_loop f x' y') as [[z|]|] eqn:L; try discriminate. rewrite (gcd_loop_more _ k _ _ _ L). exact E. }
  rewrite E2 in E'. injection E' as <-. split; assumption.
Qed.
Lemma eval_e_ok : forall gf fuel phi rs e, pos phi -> magnitude phi <> 0 -> bytes rs -> rsa_eval_e gf fuel phi rs = Done (Some e) -> pos e /\ magnitude e < magnitude phi /\ N.gcd (magnitude e) (magnitude phi) = 1.
Proof.
  intros gf. induction fuel as [|fuel IH]; intros phi rs e P N0 Hb E; cbn [rsa_eval_e] in E; [discriminate|]. destruct (draw_digits (size phi) rs) as [[ds rs']|] eqn:D; [|discriminate]. destruct (draw_wf _ _ _ _ Hb D) as (L & F & B2).
  set (e' := mkMp false ds) in E. assert (pos e') as Pe. { split; [|reflexivity]. split; [|exact F]. intro C. unfold e' in C. cbn [data] in C. rewrite C in L. pose proof (wf_size phi (proj1 P)). cbn [length] in L. lia. }
  rewrite mp_ge_ok in E by (try apply Pe; try apply P; rewrite (proj2 Pe), (proj2 P); reflexivity). destruct (N.leb_spec (magnitude phi) (magnitude e')) as [C|C]; [apply (IH phi rs' e P N0 B2 E)|].
  destruct (gcd gf e' phi) as [[g|]|] eqn:G; cbn [obind] in E; try discriminate. destruct (N.eq_dec (magnitude e') 0) as [Z|Z]; [rewrite gcd_zero in G by (try assumption; left; exact Z); discriminate|].
  assert (pos g /\ magnitude g = N.gcd (magnitude e') (magnitude phi)) as [Pg Mg] by (apply (gcd_sound gf e' phi g Pe P Z N0 G)).
  unfold mp_ne in E. rewrite (eq_num g 1 Pg) in E by reflexivity. destruct (N.eqb_spec (magnitude g) 1) as [H|H]; cbn [negb] in E; [|apply (IH phi rs' e P N0 B2 E)]. injection E as <-. split; [exact Pe|]. split; [exact C|congruence].
Qed.

Lemma assign_mag : forall d a, pos a -> pos (assign (Some d) a) /\ magnitude (assign (Some d) a) = magnitude a.
Proof.
  intros d a [W Na]. unfold assign. set (n := if Nat.ltb _ _ then size a else size d). clearbody n. assert (pos (mkMp (neg a) (data a ++ repeat 0 (n - size a)))) as P. { split; [|exact Na]. apply wf2; cbn [data]. split. - intro E. apply app_eq_nil in E. destruct E as [E _]. apply wf1 in W. tauto. - apply wf1 in W. apply Forall_app. split; [apply W|apply wd_zeros]. }
  split; [exact P|]. rewrite !mag. cbn [data]. apply dv_pad.
Qed.
(* the numbers behind a key pair *)
Record pair_of (p q : N) (pub priv : list N) (n e d : mp) : Prop := {
  pr_n : pos n; pr_nm : magnitude n = p * q; pr_nt : trimmed_digits n; pr_e : pos e; pr_d : pos d;
  pr_ed : magnitude e * magnitude d mod ((p - 1) * (q - 1)) = 1;
  pr_pub : rel (Some pub) (key_of hdr_n n hdr_e e); pr_priv : rel (Some priv) (key_of hdr_n n hdr_d d) }.
Lemma primes_phi_even : forall p q, primeN p -> primeN q -> p <> q -> N.odd ((p - 1) * (q - 1)) = false /\ 1 < (p - 1) * (q - 1).
Proof.
  intros p q Pp Pq Ne. pose proof (primeN_ge p Pp) as G1. pose proof (primeN_ge q Pq) as G2.
  assert (forall r, primeN r -> r <> 2 -> N.odd (r - 1) = false) as O. { intros r Pr R2. pose proof (primeN_ge r Pr) as Gr. destruct (N.odd (r - 1)) eqn:Od; [|reflexivity]. exfalso. apply N.odd_spec in Od. destruct Od as [t Ht]. assert ((2 | Z.of_N r)%Z) as D by (exists (Z.of_N (t + 1)); lia). destruct (prime_divisors _ Pr 2 D) as [H|[H|[H|H]]]; lia. }
  rewrite N.odd_mul. destruct (N.eq_dec p 2) as [E|E]; [rewrite (O q Pq) by congruence|rewrite (O p Pp E)]; rewrite ?Bool.andb_false_r; (split; [reflexivity|nia]).
Qed.
Lemma key_pair_ok : forall fuel p q rs pub priv, pos p -> pos q -> primeN (magnitude p) -> primeN (magnitude q) -> magnitude p <> magnitude q -> bytes rs ->
  rsa_key_pair fuel p q rs = Done (Some (pub, priv)) -> fits pub -> fits priv -> exists n e d, pair_of (magnitude p) (magnitude q) pub priv n e d.
Proof.
  intros fuel p q rs pub priv P Q Pp Pq Ne Hb E F1 F2. pose proof (primeN_ge _ Pp) as G1. pose proof (primeN_ge _ Pq) as G2. destruct (primes_phi_even _ _ Pp Pq Ne) as [Ev Gt].
  unfold rsa_key_pair in E. cbv zeta in E. rewrite (assign_pos p P) in E. pose proof (pos_num 1 ltac:(reflexivity)) as P1. assert (magnitude (num 1) = 1) as M1 by apply mag_num.
  destruct (pos_sub p (num 1) P P1) as (t & Et & Pt & Mt); [rewrite M1; lia|]. rewrite Et in E. cbn [obind] in E. rewrite (assign_pos t Pt) in E. destruct (assign_mag t q Q) as [Qa Ma].
  destruct (pos_sub _ (num 1) Qa P1) as (u & Eu & Pu & Mu); [rewrite M1, Ma; lia|]. rewrite Eu in E. cbn [obind] in E. destruct (pos_mul t u Pt Pu) as [Pphi Mphi]. set (phi := mp_mul (Some t) u) in *. rewrite Mt, Mu, M1, Ma in Mphi. clearbody phi.
  destruct (rsa_eval_e fuel fuel phi rs) as [[e|]|] eqn:Ee; cbn [obind] in E; try discriminate. destruct (eval_e_ok _ _ _ _ _ Pphi ltac:(rewrite Mphi; lia) Hb Ee) as (Pe & _ & Ge).
  destruct (modinv fuel e phi) as [[d|]|] eqn:Ed; cbn [obind] in E; try discriminate. destruct (modinv_even_ok fuel e phi d Pe Pphi) as (Pd & _ & Id & _); [rewrite Mphi; lia|rewrite odd_ok by apply Pphi; rewrite Mphi; exact Ev|exact Ed|].
  specialize (Id Ge). rewrite Mphi in Id. rewrite (N.mod_small 1) in Id by exact Gt. destruct (mp_mul_ok p q (proj1 P) (proj1 Q)) as (Wn & Nn & Mn & Tn). set (n := mp_mul (Some p) q) in *. clearbody n.
  destruct (put2 hdr_n n hdr_e e) as [r1 [k1|]] eqn:X1; [|destruct r1; discriminate]. destruct r1; try discriminate. destruct (put2 hdr_n n hdr_d d) as [r2 [k2|]] eqn:X2; [|destruct r2; discriminate]. destruct r2; try discriminate. injection E as <- <-.
  exists n, e, d. constructor; [split; assumption|exact Mn|apply Tn; nia|exact Pe|exact Pd|rewrite N.mul_comm; exact Id| |].
  - apply put2_ok; [apply hn|apply he|vm_compute; discriminate|exact Wn|apply Pe|exact X1|exact F1].
  - apply put2_ok; [apply hn|apply hd_|vm_compute; discriminate|exact Wn|apply Pd|exact X2|exact F2].
Qed.
Lemma key_first : forall h1 a h2 b buf, rel (Some buf) (key_of h1 a h2 b) -> good_header h1 -> h1 <> h2 -> pos a -> pem_get_mp h1 (Some buf) = Done (Some a).
Proof. intros h1 a h2 b buf R G Ne P. apply (get_mp_ok _ _ h1 a R G); [|exact P]. unfold key_of. rewrite insert_other by congruence. apply insert_same. Qed.
Lemma key_second : forall h1 a h2 b buf, rel (Some buf) (key_of h1 a h2 b) -> good_header h2 -> pos b -> pem_get_mp h2 (Some buf) = Done (Some b).
Proof. intros h1 a h2 b buf R G P. apply (get_mp_ok _ _ h2 b R G); [|exact P]. unfold key_of. apply insert_same. Qed.

(* ---- encryption *)
Lemma one_put : forall h a p, good_header h -> pos a -> pem_put_mp None h a = (Success, Some p) -> fits p -> pem_get_mp h (Some p) = Done (Some a).
Proof.
  intros h a p G P E F. destruct (rel_put_mp None empty_map h a rel_empty G eq_refl (proj1 P)) as (p' & E' & R & _). rewrite E in E'. injection E' as <-. apply (get_mp_ok _ _ h a (R F) G); [apply insert_same|exact P].
Qed.
Section Pair.
Variables (p q : N) (pub priv : list N) (n e d : mp).
Hypotheses (K : pair_of p q pub priv n e d) (Pp : primeN p) (Pq : primeN q) (Ne : p <> q).
Lemma mod0 : magnitude n <> 0. Proof. rewrite (pr_nm _ _ _ _ _ _ _ K). pose proof (primeN_ge _ Pp). pose proof (primeN_ge _ Pq). nia. Qed.
Lemma get_n_pub : pem_get_mp hdr_n (Some pub) = Done (Some n).
Proof. apply (key_first _ _ _ _ _ (pr_pub _ _ _ _ _ _ _ K) hn); [vm_compute; discriminate|apply (pr_n _ _ _ _ _ _ _ K)]. Qed.
Lemma get_e_pub : pem_get_mp hdr_e (Some pub) = Done (Some e).
Proof. apply (key_second _ _ _ _ _ (pr_pub _ _ _ _ _ _ _ K) he). apply (pr_e _ _ _ _ _ _ _ K). Qed.
Lemma get_n_priv : pem_get_mp hdr_n (Some priv) = Done (Some n).
Proof. apply (key_first _ _ _ _ _ (pr_priv _ _ _ _ _ _ _ K) hn); [vm_compute; discriminate|apply (pr_n _ _ _ _ _ _ _ K)]. Qed.
Lemma get_d_priv : pem_get_mp hdr_d (Some priv) = Done (Some d).
Proof. apply (key_second _ _ _ _ _ (pr_priv _ _ _ _ _ _ _ K) hd_). apply (pr_d _ _ _ _ _ _ _ K). Qed.
(* raising to e and then to d, or the other way around *)
Lemma there_and_back : forall x a b, pos x -> pos a -> pos b -> magnitude a * magnitude b = magnitude e * magnitude d ->
  exists y z, me_mod_n x a n = Done y /\ me_mod_n y b n = Done z /\ pos y /\ pos z /\ magnitude z mod (p * q) = magnitude x mod (p * q) /\ (magnitude x < magnitude n < 2 ^ 64 -> magnitude z = magnitude x) /\ (p * q < 2 ^ 64 -> magnitude z < p * q).
Proof.
  intros x a b Px Pa Pb H. pose proof mod0 as N0. destruct (me_mod_n_ok x a n Px (proj1 Pa) (pr_n _ _ _ _ _ _ _ K) N0) as (y & Ey & Py & Vy & _). destruct (me_mod_n_ok y b n Py (proj1 Pb) (pr_n _ _ _ _ _ _ _ K) N0) as (z & Ez & Pz & Vz & Lz). exists y, z.
  assert (magnitude z mod (p * q) = magnitude x mod (p * q)) as V. { rewrite <- (pr_nm _ _ _ _ _ _ _ K), Vz, <- (pow_mod_l _ N0), Vy, (pow_mod_l _ N0), <- N.pow_mul_r, H, (pr_nm _ _ _ _ _ _ _ K). apply rsa_power; try assumption. apply (pr_ed _ _ _ _ _ _ _ K). }
  split; [exact Ey|]. split; [exact Ez|]. split; [exact Py|]. split; [exact Pz|]. split; [exact V|]. split; [|intro X2; rewrite <- (pr_nm _ _ _ _ _ _ _ K) in *; apply Lz; [rewrite B_eq; exact X2|apply (pr_nt _ _ _ _ _ _ _ K)]]. intros [X1 X2]. rewrite <- (pr_nm _ _ _ _ _ _ _ K) in V. rewrite (N.mod_small _ _ X1) in V. rewrite <- V. symmetry. apply N.mod_small, Lz; [rewrite B_eq; exact X2|apply (pr_nt _ _ _ _ _ _ _ K)].
Qed.
Lemma encrypt_decrypt : forall inp, bytes inp -> inp <> [] -> (length inp <= 8 * size n)%nat ->
  exists c, rsa_encrypt pub inp = Done (Success, Some c) /\
    (fits c -> exists out, rsa_decrypt priv c = Done (Success, Some out) /\ bytes out /\ (length out mod 8 = 0 /\ 8 <= length out)%nat /\ be_val out mod (p * q) = be_val inp mod (p * q) /\ (be_val inp < p * q < 2 ^ 64 -> be_val out = be_val inp)).
Proof.
  intros inp Hb N0 L. destruct (raw_ok inp Hb N0) as (m & Em & Nm & Mm & Wm & _). assert (pos m) as Pm by (split; assumption).
  destruct (there_and_back m e d Pm (pr_e _ _ _ _ _ _ _ K) (pr_d _ _ _ _ _ _ _ K) eq_refl) as (y & z & Ey & Ez & Py & Pz & V & X & _).
  unfold rsa_encrypt, fetch. rewrite get_n_pub. cbn [obind]. replace (Nat.ltb (8 * size n) (length inp)) with false by (symmetry; apply Nat.ltb_ge; exact L). rewrite get_e_pub. cbn [obind]. rewrite Em, Ey. cbn [obind].
  destruct (rel_put_mp None empty_map hdr_c y rel_empty hc eq_refl (proj1 Py)) as (c & Ec & _ & _). exists c. rewrite Ec. split; [reflexivity|]. intro F. pose proof (one_put hdr_c y c hc Py Ec F) as Gc.
  unfold rsa_decrypt, fetch. rewrite get_n_priv. cbn [obind]. rewrite get_d_priv. cbn [obind]. rewrite Gc. cbn [obind]. rewrite Ez. cbn [obind]. exists (as_task_out z). destruct (task_out_ok z (proj1 Pz)) as (T1 & T2 & T3). split; [reflexivity|]. split; [exact T3|]. split; [rewrite T2; split; [rewrite Nat.mul_comm; apply Nat.mod_mul; discriminate|pose proof (wf_size z (proj1 Pz)); lia]|]. rewrite T1, <- Mm. split; [exact V|]. rewrite <- (pr_nm _ _ _ _ _ _ _ K). exact X.
Qed.
Lemma signed : forall inp, bytes inp -> inp <> [] -> N.of_nat (length inp) < 2 ^ 55 -> (length inp <= 8 * size n)%nat ->
  exists m sg z, well_formed m /\ magnitude m = be_val inp /\ pos z /\ magnitude z mod (p * q) = magnitude m mod (p * q) /\ (p * q < 2 ^ 64 -> magnitude z < p * q) /\ rsa_sign priv inp = Done (Success, Some sg) /\
    (fits sg -> rsa_verify pub sg = if magnitude m =? magnitude z then Done (Success, Some (as_task_out m)) else Done (InvalidSignature, None)).
Proof.
  intros inp Hb N0 Sh L. destruct (raw_ok inp Hb N0) as (m & Em & Nm & Mm & Wm & Sm). assert (pos m) as Pm by (split; assumption).
  destruct (there_and_back m d e Pm (pr_d _ _ _ _ _ _ _ K) (pr_e _ _ _ _ _ _ _ K) (N.mul_comm _ _)) as (y & z & Ey & Ez & Py & Pz & V & _ & X).
  unfold rsa_sign, fetch. rewrite get_d_priv. cbn [obind]. rewrite get_n_priv. cbn [obind]. replace (Nat.ltb (8 * size n) (length inp)) with false by (symmetry; apply Nat.ltb_ge; exact L). rewrite Em, Ey. cbn [obind].
  assert (exists sg, put2 hdr_x m hdr_s y = (Success, Some sg)) as [sg Es]. { unfold put2. destruct (rel_put_mp None empty_map hdr_x m rel_empty hx eq_refl Wm) as (p1 & E1 & R1 & _). rewrite E1. assert (fits p1) as F1. { apply (one_fits hdr_x m p1); [vm_compute; lia|exact Wm| |exact E1]. rewrite Sm. pose proof (Nat.div_mod (length inp + 7) 8 ltac:(discriminate)). destruct inp; [congruence|]. cbn [length] in *. lia. }
    destruct (rel_put_mp _ _ hdr_s y (R1 F1) hs) as (p2 & E2 & _); [rewrite insert_other by (vm_compute; discriminate); reflexivity|apply Py|]. exists p2. exact E2. }
  exists m, sg, z. rewrite Es. split; [exact Wm|]. split; [exact Mm|]. split; [exact Pz|]. split; [exact V|]. split; [exact X|]. split; [reflexivity|]. intro F.
  pose proof (put2_ok hdr_x m hdr_s y sg hx hs ltac:(vm_compute; discriminate) Wm (proj1 Py) Es F) as R.
  unfold rsa_verify, fetch. rewrite (key_first _ _ _ _ _ R hx ltac:(vm_compute; discriminate) Pm). cbn [obind]. rewrite (key_second _ _ _ _ _ R hs Py). cbn [obind]. rewrite get_e_pub. cbn [obind]. rewrite get_n_pub. cbn [obind]. rewrite Ez. cbn [obind]. unfold mp_ne. rewrite eq_pos by assumption. destruct (magnitude m =? magnitude z); reflexivity.
Qed.
Lemma sign_verify : forall inp, bytes inp -> inp <> [] -> N.of_nat (length inp) < 2 ^ 55 -> (length inp <= 8 * size n)%nat -> be_val inp < p * q < 2 ^ 64 ->
  exists sg, rsa_sign priv inp = Done (Success, Some sg) /\ (fits sg -> exists out, rsa_verify pub sg = Done (Success, Some out) /\ be_val out = be_val inp).
Proof.
  intros inp Hb N0 Sh L [L1 L2]. destruct (signed inp Hb N0 Sh L) as (m & sg & z & Wm & Mm & Pz & V & X & E & F). exists sg. split; [exact E|]. intro Fs. rewrite (F Fs). rewrite Mm in *. rewrite (N.mod_small (be_val inp)) in V by exact L1. rewrite N.mod_small in V by (apply X; exact L2). rewrite V, N.eqb_refl. exists (as_task_out m). split; [reflexivity|]. rewrite <- Mm. apply task_out_ok. exact Wm.
Qed.
Lemma sign_refused : forall inp, bytes inp -> inp <> [] -> N.of_nat (length inp) < 2 ^ 55 -> (length inp <= 8 * size n)%nat -> p * q < 2 ^ 64 -> p * q <= be_val inp ->
  exists sg, rsa_sign priv inp = Done (Success, Some sg) /\ (fits sg -> rsa_verify pub sg = Done (InvalidSignature, None)).
Proof.
  intros inp Hb N0 Sh L L1 L2. destruct (signed inp Hb N0 Sh L) as (m & sg & z & Wm & Mm & Pz & V & X & E & F). exists sg. split; [exact E|]. intro Fs. rewrite (F Fs). specialize (X L1). replace (magnitude m =? magnitude z) with false; [reflexivity|]. symmetry. apply N.eqb_neq. lia.
Qed.
End Pair.
(* ---- verification accepts nothing else *)
Lemma verify_sound : forall key inp out, rsa_verify key inp = Done (Success, Some out) ->
  exists n e x s, pem_get_mp hdr_n (Some key) = Done (Some n) /\ pem_get_mp hdr_e (Some key) = Done (Some e) /\ pem_get_mp hdr_x (Some inp) = Done (Some x) /\ pem_get_mp hdr_s (Some inp) = Done (Some s) /\
    magnitude n <> 0 /\ magnitude s ^ magnitude e mod magnitude n = magnitude x mod magnitude n /\ be_val out = magnitude x.
Proof.
  intros key inp out E. unfold rsa_verify, fetch in E. destruct (pem_get_mp hdr_x (Some inp)) as [[x|]|] eqn:Gx; cbn [obind] in E; try discriminate. destruct (pem_get_mp hdr_s (Some inp)) as [[s|]|] eqn:Gs; cbn [obind] in E; try discriminate. destruct (pem_get_mp hdr_e (Some key)) as [[e|]|] eqn:Ge; cbn [obind] in E; try discriminate. destruct (pem_get_mp hdr_n (Some key)) as [[n|]|] eqn:Gn; cbn [obind] in E; try discriminate.
  pose proof (get_mp_pos _ _ _ Gx) as Px. pose proof (get_mp_pos _ _ _ Gs) as Ps. pose proof (get_mp_pos _ _ _ Ge) as Pe. pose proof (get_mp_pos _ _ _ Gn) as Pn. exists n, e, x, s. destruct (N.eq_dec (magnitude n) 0) as [Z|Z]; [rewrite (me_mod_zero s e n (proj1 Pe) Pn Z) in E; discriminate|].
  destruct (me_mod_n_ok s e n Ps (proj1 Pe) Pn Z) as (r & Er & Pr & V & _). rewrite Er in E. cbn [obind] in E. unfold mp_ne in E. rewrite eq_pos in E by assumption. destruct (N.eqb_spec (magnitude x) (magnitude r)) as [H|H]; cbn [negb] in E; [|discriminate]. injection E as <-. split; [reflexivity|]. split; [reflexivity|]. split; [reflexivity|]. split; [reflexivity|]. split; [exact Z|]. split; [rewrite H, V; reflexivity|]. apply task_out_ok, Px.
Qed.
