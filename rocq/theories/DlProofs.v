From Verif Require Import Words EncSpec TaskModel MpModel MpModel2 MpSpec MpProofs MpProofs2 MpProofs3 MpProofs4 MpProofs5 MpProofs6 NumTheory PemModel PemSpec PemProofs PkLib RsaProofs DlModel.
From Coq Require Import Znumtheory.
Open Scope N_scope.

(* ---- buffers with several numbers *)
Definition map_of (l : list (list N * mp)) (m : pem_map) : pem_map := fold_left (fun m e => insert m (fst e) (mp_image (snd e))) l m.
Lemma put_longer : forall pem h d r p, pem_put (Some pem) h d = (r, p) -> exists b, p = Some b /\ (length pem <= length b)%nat.
Proof.
  intros pem h d r p E. unfold pem_put in E. destruct d as [|x d]; [injection E as <- <-; exists pem; split; [reflexivity|lia]|]. destruct (find_header (begin_mark h) pem); [injection E as <- <-; exists pem; split; [reflexivity|lia]|]. destruct (EncModel.base64_encode (x :: d)); injection E as <- <-; eexists; (split; [reflexivity|]); [rewrite app_length; lia|lia].
Qed.
Lemma puts_longer : forall l pem r p, put_mps (Some pem) l = (r, p) -> exists b, p = Some b /\ (length pem <= length b)%nat.
Proof.
  induction l as [|[h a] l IH]; intros pem r p E; cbn [put_mps] in E; [injection E as <- <-; exists pem; split; [reflexivity|lia]|]. destruct (pem_put_mp (Some pem) h a) as [r1 p1] eqn:E1. destruct (put_longer pem h (mp_image a) r1 p1 E1) as (b & -> & L). destruct r1; try (injection E as <- <-; exists b; split; [reflexivity|exact L]). destruct (IH b r p E) as (b2 & -> & L2). exists b2. split; [reflexivity|lia].
Qed.
Lemma puts_rel : forall l pem m r p, rel pem m -> Forall (fun e => good_header (fst e) /\ m (fst e) = None /\ well_formed (snd e)) l -> NoDup (map fst l) -> put_mps pem l = (r, Some p) -> fits p -> r = Success /\ rel (Some p) (map_of l m).
Proof.
  induction l as [|[h a] l IH]; intros pem m r p R F D E Fp; cbn [put_mps] in E; [injection E as <- ->; split; [reflexivity|exact R]|]. apply Forall_cons_iff in F. destruct F as [(G & M & W) F]. cbn [fst snd map] in *. apply NoDup_cons_iff in D. destruct D as [Ni D]. destruct (rel_put_mp pem m h a R G M W) as (p1 & E1 & R1 & _). rewrite E1 in E.
  destruct (puts_longer l p1 r (Some p) E) as (b & Eb & L). injection Eb as <-. assert (fits p1) as F1 by (unfold fits in *; lia). apply (IH (Some p1) (insert m h (mp_image a)) r p (R1 F1)); try assumption. rewrite Forall_forall in *. intros e He. destruct (F e He) as (X & Y & Z). split; [exact X|]. split; [|exact Z]. rewrite insert_other; [exact Y|]. intro Q. apply Ni. rewrite Q. apply in_map. exact He.
Qed.
Lemma map_of_absent : forall l m h, ~ In h (map fst l) -> map_of l m h = m h.
Proof. induction l as [|[k a] l IH]; intros m h H; [reflexivity|]. cbn [map_of fold_left map fst snd In] in *. change (map_of l (insert m k (mp_image a)) h = m h). rewrite IH by tauto. apply insert_other. tauto. Qed.
Lemma map_of_present : forall l m h a, NoDup (map fst l) -> In (h, a) l -> map_of l m h = Some (mp_image a).
Proof.
  induction l as [|[k b] l IH]; intros m h a D I; [destruct I|]. cbn [map fst] in D. apply NoDup_cons_iff in D. destruct D as [Ni D]. change (map_of l (insert m k (mp_image b)) h = Some (mp_image a)). destruct I as [E|I]; [injection E as -> ->; rewrite map_of_absent by exact Ni; apply insert_same|apply (IH _ h a D I)].
Qed.
Definition puts (l : list (list N * mp)) : Prop := Forall (fun e => good_header (fst e) /\ pos (snd e)) l /\ NoDup (map fst l).
Lemma puts_get : forall l r p, puts l -> put_mps None l = (r, Some p) -> fits p -> r = Success /\ (forall h a, In (h, a) l -> pem_get_mp h (Some p) = Done (Some a)) /\ (forall h, good_header h -> ~ In h (map fst l) -> pem_get_mp h (Some p) = Done None).
Proof.
  intros l r p [F D] E Fp. destruct (puts_rel l None empty_map r p rel_empty) as [S R]; try assumption. { rewrite Forall_forall in *. intros e He. destruct (F e He) as [G P]. split; [exact G|]. split; [reflexivity|apply P]. }
  split; [exact S|]. split.
  - intros h a I. rewrite Forall_forall in F. destruct (F (h, a) I) as [G P]. apply (get_mp_ok _ _ h a R G); [apply map_of_present; assumption|exact P].
  - intros h G Ni. apply (get_mp_none _ _ h R G). rewrite map_of_absent by exact Ni. reflexivity.
Qed.
Lemma puts_some : forall l, l <> [] -> puts l -> exists r p, put_mps None l = (r, Some p).
Proof.
  intros [|[h a] l] N0 [F D]; [congruence|]. apply Forall_cons_iff in F. destruct F as [[G P] F]. cbn [put_mps fst snd] in *. destruct (rel_put_mp None empty_map h a rel_empty G eq_refl (proj1 P)) as (p1 & E1 & _). rewrite E1. destruct (put_mps (Some p1) l) as [r p] eqn:E. destruct (puts_longer l p1 r p E) as (b & -> & _). exists r, b. reflexivity.
Qed.
(* ---- random numbers *)
Lemma rand_wf : forall n rs ds rs', bytes rs -> rand_digits n rs = Some (ds, rs') -> length ds = n /\ Forall (fun d => d < 2 ^ 64) ds /\ bytes rs'.
Proof.
  induction n as [|n IH]; intros rs ds rs' Hb E; cbn [rand_digits] in E; [injection E as <- <-; repeat split; [constructor|exact Hb]|]. destruct rs as [|a [|b [|c [|d [|e [|f [|g [|h rs]]]]]]]]; try discriminate. assert (bytes [a; b; c; d; e; f; g; h] /\ bytes rs) as [H8 Hr] by (change (a :: b :: c :: d :: e :: f :: g :: h :: rs) with ([a; b; c; d; e; f; g; h] ++ rs) in Hb; apply Forall_app in Hb; exact Hb).
  destruct (rand_digits n rs) as [[ds' rs'']|] eqn:Er; [|discriminate]. injection E as <- <-. destruct (IH rs ds' rs'' Hr Er) as (L & F & B2). split; [cbn [length]; lia|]. split; [|exact B2]. constructor; [|exact F]. pose proof (be_val_lt _ H8) as V. exact V.
Qed.
Lemma land_lt : forall x y, x < 2 ^ 64 -> N.land x y < 2 ^ 64.
Proof. intros x y H. destruct (N.eq_dec (N.land x y) 0) as [->|Z]; [reflexivity|]. apply N.log2_lt_pow2; [lia|]. eapply N.le_lt_trans; [apply N.log2_land|]. destruct (N.eq_dec x 0) as [->|X]; [rewrite N.land_0_l in Z; congruence|]. eapply N.le_lt_trans; [apply N.le_min_l|]. apply N.log2_lt_pow2; [lia|exact H]. Qed.
Lemma mask_top_wf : forall mask l, l <> [] -> Forall (fun d => d < 2 ^ 64) l -> pos (mkMp false (mask_top mask l)).
Proof.
  intros mask l N0 F. split; [|reflexivity]. split; cbn [data]; unfold mask_top; [destruct (removelast l); discriminate|]. rewrite (app_removelast_last 0 N0) in F. apply Forall_app in F. destruct F as [F1 F2]. apply Forall_app. split; [exact F1|]. constructor; [|constructor]. inversion F2. apply land_lt. assumption.
Qed.
Lemma between_loop_ok : forall fuel lo hi n mask rs r rs', pos lo -> pos hi -> (0 < n)%nat -> bytes rs -> between_loop fuel lo hi n mask rs = Done (Some (r, rs')) -> pos r /\ magnitude lo <= magnitude r <= magnitude hi /\ bytes rs'.
Proof.
  induction fuel as [|fuel IH]; intros lo hi n mask rs r rs' Pl Ph Hn Hb E; cbn [between_loop] in E; [discriminate|]. destruct (rand_digits n rs) as [[ds rs1]|] eqn:D; [|discriminate]. destruct (rand_wf _ _ _ _ Hb D) as (L & F & B1).
  assert (pos (mkMp false (mask_top mask ds))) as Pr by (apply mask_top_wf; [intro Q; subst ds; cbn in L; lia|exact F]). cbv zeta in E. set (x := mkMp false (mask_top mask ds)) in *. clearbody x.
  rewrite mp_lt_ok, mp_gt_ok in E by (try apply Pr; try apply Pl; try apply Ph; rewrite ?(proj2 Pr), ?(proj2 Pl), ?(proj2 Ph); reflexivity).
  destruct (N.ltb_spec (magnitude x) (magnitude lo)) as [C|C]; [apply (IH lo hi n mask rs1 r rs'); assumption|]. destruct (N.ltb_spec (magnitude hi) (magnitude x)) as [C2|C2]; [apply (IH lo hi n mask rs1 r rs'); assumption|]. cbn [orb] in E. injection E as <- <-. split; [exact Pr|]. split; [split; assumption|exact B1].
Qed.
Lemma random_between_ok : forall fuel lo q rs r rs', pos q -> 0 < lo <= 2 -> lo <= magnitude q -> bytes rs -> random_between fuel lo q rs = Done (Some (r, rs')) -> pos r /\ lo <= magnitude r <= magnitude q - lo /\ bytes rs'.
Proof.
  intros fuel lo q rs r rs' Pq Hl Hq Hb E. unfold random_between in E. rewrite (assign_pos q Pq) in E. assert (lo < 2 ^ 64) as L64 by (eapply N.le_lt_trans; [apply Hl|reflexivity]). pose proof (pos_num lo L64) as Pl. assert (magnitude (num lo) = lo) as Ml by apply mag_num.
  destruct (pos_sub q (num lo) Pq Pl) as (hi & Eh & Ph & Mh); [rewrite Ml; exact Hq|]. rewrite Eh in E. cbn [obind] in E. cbv zeta in E. destruct (last (data hi) 0 =? 0); [discriminate|]. destruct (between_loop_ok _ _ _ _ _ _ _ _ Pl Ph (wf_size q (proj1 Pq)) Hb E) as (Pr & X & B1). rewrite Ml, Mh, Ml in X. split; [exact Pr|]. split; [exact X|exact B1].
Qed.
(* ---- remainders *)
Lemma rem_cong : forall a n, pos a -> pos n -> magnitude n <> 0 -> exists q r, mp_div a n = Done (Some (q, r)) /\ pos r /\ magnitude r mod magnitude n = magnitude a mod magnitude n /\ (magnitude n < 2 ^ 64 -> trimmed_digits n -> magnitude r < magnitude n).
Proof.
  intros a n Pa Pn N0. destruct (mp_div_ok a n Pa Pn N0) as (q & r & E & _ & Pr & V & L). exists q, r. split; [exact E|]. split; [exact Pr|]. split; [rewrite V, N.add_comm, N.mod_add by exact N0; reflexivity|]. intros H T. apply L; [exact T|]. apply one_digit_leads. exact H.
Qed.
Definition small (n : mp) : Prop := pos n /\ 0 < magnitude n < 2 ^ 64 /\ trimmed_digits n.
Lemma rem_small : forall a n, pos a -> small n -> exists q r, mp_div a n = Done (Some (q, r)) /\ pos r /\ magnitude r = magnitude a mod magnitude n.
Proof.
  intros a n Pa (Pn & L & T). destruct (rem_cong a n Pa Pn) as (q & r & E & Pr & V & X); [lia|]. exists q, r. split; [exact E|]. split; [exact Pr|]. rewrite <- V. symmetry. apply N.mod_small. apply X; [apply L|exact T].
Qed.
Lemma pow_small : forall m e n, pos m -> pos e -> small n -> exists r, me_mod_n m e n = Done r /\ pos r /\ magnitude r = magnitude m ^ magnitude e mod magnitude n.
Proof.
  intros m e n Pm Pe (Pn & L & T). destruct (me_mod_n_ok m e n Pm (proj1 Pe) Pn) as (r & E & Pr & V & X); [lia|]. exists r. split; [exact E|]. split; [exact Pr|]. rewrite <- V. symmetry. apply N.mod_small. apply X; [rewrite B_eq; apply L|exact T].
Qed.
Lemma pow_pow : forall g a b n, n <> 0 -> (g ^ a mod n) ^ b mod n = g ^ (a * b) mod n.
Proof. intros g a b n H. rewrite pow_mod_l by exact H. rewrite <- N.pow_mul_r. reflexivity. Qed.
Lemma div_below : forall x y, pos x -> pos y -> magnitude x < magnitude y -> exists q r, mp_div x y = Done (Some (q, r)) /\ pos r /\ magnitude r = magnitude x.
Proof.
  intros x y Px Py L. unfold mp_div. destruct (is_zero y) eqn:Zy; [apply is_zero_dv in Zy; rewrite <- mag in Zy; lia|]. destruct (is_zero x) eqn:Zx.
  - apply is_zero_dv in Zx. rewrite <- mag in Zx. exists (num 0), (num 0). split; [reflexivity|]. split; [apply pos_num; reflexivity|]. rewrite Zx. apply mag_num.
  - rewrite mp_lt_ok by (try apply Px; try apply Py; rewrite (proj2 Px), (proj2 Py); reflexivity). assert (magnitude x <? magnitude y = true) as -> by (apply N.ltb_lt; exact L). rewrite (assign_pos x Px). exists (num 0), x. split; [reflexivity|]. split; [exact Px|reflexivity].
Qed.
Lemma digit_bits_zero : digit_bits 0 = repeat false 64.
Proof. reflexivity. Qed.
Lemma zero_digits : forall l, digits_val l = 0 -> Forall (fun d => d = 0) l.
Proof. induction l as [|d l IH]; intro H; [constructor|]. cbn [digits_val] in H. pose proof B_nz. apply N.eq_add_0 in H. destruct H as [-> H]. apply N.eq_mul_0 in H. constructor; [reflexivity|]. apply IH. destruct H; [|assumption]. contradiction. Qed.
Lemma bitmap_zero : forall e, magnitude e = 0 -> Forall (fun b => b = false) (bitmap e).
Proof.
  intros e H. rewrite mag in H. apply zero_digits in H. unfold bitmap. assert (Forall (fun d => d = 0) (rev (data e))) as R by (apply Forall_rev; exact H). induction R as [|d l -> _ IH]; [constructor|]. cbn [map concat]. apply Forall_app. split; [rewrite digit_bits_zero; apply Forall_forall; intros b Hb; apply repeat_spec in Hb; exact Hb|exact IH].
Qed.
(* the power 0 is exactly 1, for every modulus above 1 *)
Lemma pow_zero : forall m e n, pos e -> pos n -> magnitude e = 0 -> 1 < magnitude n -> exists r, me_mod_n m e n = Done r /\ pos r /\ magnitude r = 1.
Proof.
  intros m e n Pe Pn He Hn. unfold me_mod_n. pose proof (bitmap_zero e He) as F. assert (forall l A, Forall (fun b => b = false) l -> pos A -> magnitude A = 1 -> exists r, fold_left (me_step m n) l (Done A) = Done r /\ pos r /\ magnitude r = 1) as H.
  { clear F. induction l as [|b l IH]; intros A F PA MA; [exists A; split; [reflexivity|]; split; assumption|]. apply Forall_cons_iff in F. destruct F as [-> F]. cbn [fold_left me_step obind]. destruct (pos_mul A A PA PA) as [P2 M2]. rewrite MA in M2. unfold reduce. destruct (div_below _ n P2 Pn) as (q & r & E & Pr & Mr); [rewrite M2; lia|]. rewrite E. cbn [obind]. apply IH; [exact F|exact Pr|]. rewrite Mr, M2. reflexivity. }
  apply (H _ (num 1) F); [apply pos_num; reflexivity|apply mag_num].
Qed.
Lemma random_total : forall fuel lo q rs, pos q -> 0 < lo <= 2 -> lo < magnitude q -> bytes rs ->
  random_between fuel lo q rs = Done None \/ exists r rs', random_between fuel lo q rs = Done (Some (r, rs')) /\ pos r /\ lo <= magnitude r <= magnitude q - lo /\ bytes rs'.
Proof.
  intros fuel lo q rs Pq Hl Hq Hb. destruct (random_between fuel lo q rs) as [[[r rs']|]|] eqn:E.
  - right. exists r, rs'. split; [reflexivity|]. apply (random_between_ok fuel lo q rs r rs'); try assumption. lia.
  - left. reflexivity.
  - exfalso. unfold random_between in E. rewrite (assign_pos q Pq) in E. assert (lo < 2 ^ 64) as L64 by (eapply N.le_lt_trans; [apply Hl|reflexivity]). destruct (mp_sub_ok q (num lo) (proj1 Pq) (proj1 (pos_num lo L64))) as (hi & Eh & Wh & Nh & Mh & Th & _); [lia|rewrite mag_num; lia|]. rewrite mag_num in *. rewrite Eh in E. cbn [obind] in E. cbv zeta in E. specialize (Th ltac:(lia)).
    destruct (N.eqb_spec (last (data hi) 0) 0) as [Z|Z].
    + revert Th Z. clear. unfold trimmed_digits. tauto.
    + clear - E. revert rs E. induction fuel as [|fuel IH]; intros rs E; cbn [between_loop] in E; [discriminate|]. destruct (rand_digits _ _) as [[ds rs1]|]; [|discriminate]. cbv zeta in E. destruct (_ || _)%bool; [apply (IH _ E)|discriminate].
Qed.
(* ---- ElGamal *)
Lemma flt_any : forall p a, primeN p -> a mod p <> 0 -> a ^ (p - 1) mod p = 1.
Proof. intros p a P H. pose proof (primeN_ge p P). rewrite <- pow_mod_l by lia. apply flt_N; [exact P|]. split; [lia|apply N.mod_lt; lia]. Qed.
Lemma pow_not_zero : forall p a e, primeN p -> a mod p <> 0 -> a ^ e mod p <> 0.
Proof.
  intros p a e P H. pose proof (primeN_ge p P). induction e as [|e IH] using N.peano_ind; [rewrite N.pow_0_r, N.mod_small by lia; discriminate|]. rewrite N.pow_succ_r'. intro Z. apply N.mod_divide in Z; [|lia]. destruct Z as [k K]. assert (Z.of_N p | Z.of_N a * Z.of_N (a ^ e))%Z as D by (exists (Z.of_N k); lia). apply prime_mult in D; [|exact P].
  destruct D as [[j J]|[j J]]; [apply H|apply IH]; (apply N.mod_divide; [lia|]); exists (Z.to_N j); nia.
Qed.
Lemma elgamal_number : forall p g d i x, primeN p -> g mod p <> 0 -> d <= p - 1 -> x * (g ^ d) ^ i * (g ^ i) ^ (p - 1 - d) mod p = x mod p.
Proof.
  intros p g d i x P G D. pose proof (primeN_ge p P). rewrite <- !N.pow_mul_r. rewrite <- N.mul_assoc, <- N.pow_add_r. replace (d * i + i * (p - 1 - d)) with (i * (p - 1)) by nia. rewrite N.pow_mul_r. rewrite N.mul_mod, flt_any by (try lia; try exact P; apply pow_not_zero; assumption). rewrite N.mul_1_r, N.mod_mod by lia. reflexivity.
Qed.
Fixpoint nodupb (l : list (list N)) : bool := match l with [] => true | h :: l => (negb (existsb (eqb_header h) l) && nodupb l)%bool end.
Lemma nodup_ok : forall l, nodupb l = true -> NoDup l.
Proof.
  induction l as [|h l IH]; intro H; [constructor|]. cbn [nodupb] in H. apply andb_prop in H. destruct H as [H1 H2]. constructor; [|apply IH; exact H2]. intro I. apply Bool.negb_true_iff in H1. assert (existsb (eqb_header h) l = true) as X; [|congruence]. apply existsb_exists. exists h. split; [exact I|]. apply eqb_header_spec. reflexivity.
Qed.
Lemma absent_ok : forall h l, existsb (eqb_header h) l = false -> ~ In h l.
Proof. intros h l H I. assert (existsb (eqb_header h) l = true) as X; [|congruence]. apply existsb_exists. exists h. split; [exact I|]. apply eqb_header_spec. reflexivity. Qed.
Ltac putsok := split; [repeat (apply Forall_cons; [split; [hdr|assumption]|]); apply Forall_nil|apply nodup_ok; vm_compute; reflexivity].
Ltac inlist := cbn [In]; repeat (first [left; reflexivity|right]).
Record eg_keys (p q g b d : mp) (pub priv : list N) : Prop := mkEg {
  ek_p : pem_get_mp eg_p (Some pub) = Done (Some p); ek_q : pem_get_mp eg_q (Some pub) = Done (Some q); ek_g : pem_get_mp eg_g (Some pub) = Done (Some g); ek_b : pem_get_mp eg_b (Some pub) = Done (Some b);
  ek_pp : pem_get_mp eg_p (Some priv) = Done (Some p); ek_d : pem_get_mp eg_d (Some priv) = Done (Some d);
  ek_pos : pos b /\ pos d; ek_range : 2 <= magnitude d <= magnitude q - 2; ek_eq : magnitude b mod magnitude p = magnitude g ^ magnitude d mod magnitude p }.
Lemma eg_keys_ok : forall fuel p q g rs r1 pub r2 priv rs', pos p -> pos q -> pos g -> magnitude p <> 0 -> 2 < magnitude q -> bytes rs ->
  eg_key_pair fuel p q g rs = Done (Some ((r1, Some pub), (r2, Some priv), rs')) -> fits pub -> fits priv -> r1 = Success /\ r2 = Success /\ bytes rs' /\ exists b d, eg_keys p q g b d pub priv.
Proof.
  intros fuel p q g rs r1 pub r2 priv rs' Pp Pq Pg P0 Q2 Hb E F1 F2. unfold eg_key_pair in E. destruct (random_total fuel 2 q rs Pq ltac:(lia) Q2 Hb) as [E1|(d & rs1 & E1 & Pd & Ld & B1)]; rewrite E1 in E; cbn [obind] in E; [discriminate|].
  destruct (me_mod_n_ok g d p Pg (proj1 Pd) Pp P0) as (b & E2 & Pb & V & _). rewrite E2 in E. cbn [obind] in E. destruct (put_mps None [(eg_p, p); (eg_q, q); (eg_g, g); (eg_b, b)]) as [a1 a2] eqn:E3. destruct (put_mps None [(eg_p, p); (eg_d, d)]) as [a3 a4] eqn:E4. injection E as -> -> -> -> ->.
  destruct (puts_get [(eg_p, p); (eg_q, q); (eg_g, g); (eg_b, b)] r1 pub) as (S1 & G1 & _); [putsok|exact E3|exact F1|]. destruct (puts_get [(eg_p, p); (eg_d, d)] r2 priv) as (S2 & G2 & _); [putsok|exact E4|exact F2|].
  split; [exact S1|]. split; [exact S2|]. split; [exact B1|]. exists b, d. constructor; try (apply G1; inlist); try (apply G2; inlist); [split; assumption|exact Ld|exact V].
Qed.
Lemma eg_roundtrip : forall fuel p q g b d pub priv, eg_keys p q g b d pub priv -> pos p -> pos q -> pos g -> primeN (magnitude p) -> 2 < magnitude q < magnitude p -> magnitude g mod magnitude p <> 0 ->
  forall inp rs, bytes inp -> bytes rs -> inp <> [] -> 1 <= be_val inp < magnitude p ->
  eg_encrypt fuel pub inp rs = Done None \/ exists r c rs', eg_encrypt fuel pub inp rs = Done (Some (r, Some c, rs')) /\
    (fits c -> r = Success /\ exists out, eg_decrypt priv c = Done (Some (Success, Some out, [])) /\ be_val out mod magnitude p = be_val inp mod magnitude p /\ (magnitude p < 2 ^ 64 -> trimmed_digits p -> be_val out = be_val inp)).
Proof.
  intros fuel p q g b d pub priv [K1 K2 K3 K4 K5 K6 [Pb Pd] Kr Ke] Pp Pq Pg P Q G inp rs Hi Hr N0 V. pose proof (primeN_ge _ P) as P2. unfold eg_encrypt, fetch_or. rewrite K1. cbn [obind]. rewrite (assign_pos p Pp).
  destruct (pos_sub p (num 1) Pp (pos_num 1 ltac:(reflexivity))) as (p_1 & E1 & P1 & M1); [rewrite mag_num; lia|]. rewrite mag_num in M1. rewrite E1. cbn [obind]. destruct (raw_ok inp Hi N0) as (x & Ex & Nx & Mx & Wx & _). rewrite Ex. assert (pos x) as Px by (split; assumption).
  rewrite mp_lt_ok, mp_gt_ok by (try assumption; try apply P1; try (apply wf_num; rewrite B_eq; reflexivity); rewrite ?Nx, ?(proj2 P1); reflexivity). rewrite mag_num, Mx, M1. assert (be_val inp <? 1 = false) as -> by (apply N.ltb_ge; lia). assert (magnitude p - 1 <? be_val inp = false) as -> by (apply N.ltb_ge; lia). cbn [orb].
  rewrite K2, K3, K4. cbn [obind]. destruct (random_total fuel 2 q rs Pq ltac:(lia) ltac:(lia) Hr) as [E2|(i & rs1 & E2 & Pi & Li & B1)]; rewrite E2; cbn [obind]; [left; reflexivity|right].
  destruct (me_mod_n_ok g i p Pg (proj1 Pi) Pp ltac:(lia)) as (ke & E3 & Pke & Vke & _). destruct (me_mod_n_ok b i p Pb (proj1 Pi) Pp ltac:(lia)) as (km & E4 & Pkm & Vkm & _). rewrite E3, E4. cbn [obind]. unfold rem_or.
  destruct (pos_mul x km Px Pkm) as [Pxk Mxk]. destruct (rem_cong _ p Pxk Pp ltac:(lia)) as (qq & y & E5 & Py & Vy & _). rewrite E5. cbn [obind]. assert (puts [(eg_y, y); (eg_e, ke)]) as PU by putsok.
  destruct (puts_some [(eg_y, y); (eg_e, ke)] ltac:(discriminate) PU) as (r & c & E6). rewrite E6. exists r, c, rs1. split; [reflexivity|]. intro F. destruct (puts_get _ r c PU E6 F) as (S1 & G1 & _). split; [exact S1|].
  unfold eg_decrypt, fetch_or. rewrite K5, K6. cbn [obind]. rewrite (assign_pos p Pp). destruct (pos_sub p d Pp Pd ltac:(clear - Kr Q; lia)) as (t & E7 & Pt & Mt). rewrite E7. cbn [obind]. destruct (pos_sub t (num 1) Pt (pos_num 1 ltac:(reflexivity))) as (u & E8 & Pu & Mu); [rewrite mag_num; clear - Mt Kr Q; lia|]. rewrite mag_num in Mu. rewrite E8. cbn [obind].
  rewrite (G1 eg_e ke), (G1 eg_y y) by inlist. cbn [obind]. destruct (me_mod_n_ok ke u p Pke (proj1 Pu) Pp ltac:(clear - P2; lia)) as (ki & E9 & Pki & Vki & _). rewrite E9. cbn [obind]. unfold rem_or. destruct (pos_mul y ki Py Pki) as [Pyk Myk]. destruct (rem_cong _ p Pyk Pp ltac:(clear - P2; lia)) as (q2 & z & E10 & Pz & Vz & Lz). rewrite E10. cbn [obind].
  exists (as_task_out z). split; [reflexivity|]. destruct (task_out_ok z (proj1 Pz)) as (O & _ & _). rewrite O.
  assert (magnitude z mod magnitude p = be_val inp mod magnitude p) as C.
  { assert (magnitude u = magnitude p - 1 - magnitude d) as Mu' by (clear - Mu Mt; lia). assert (magnitude d <= magnitude p - 1) as Ld by (clear - Kr Q; lia). clear - Vz Myk Vy Mxk Vki Mx Vke Vkm Ke Mu' P2 P G Ld. rewrite Vz, Myk, N.mul_mod, Vy, Mxk, Vki, Mx by lia. rewrite <- (pow_mod_l (magnitude p) ltac:(lia) (magnitude u) (magnitude ke)), Vke, pow_mod_l by lia. rewrite (N.mul_mod (be_val inp)), Vkm by lia. rewrite <- (pow_mod_l (magnitude p) ltac:(lia) (magnitude i) (magnitude b)), Ke, pow_mod_l by lia. rewrite <- (N.mul_mod (be_val inp)), <- N.mul_mod by lia. rewrite Mu'. apply elgamal_number; assumption. }
  split; [exact C|]. intros S64 T. specialize (Lz S64 T). clear - C Lz V. rewrite !N.mod_small in C by lia. exact C.
Qed.
Lemma eg_range : forall fuel p pub inp rs, pos p -> 1 <= magnitude p -> pem_get_mp eg_p (Some pub) = Done (Some p) -> bytes inp -> inp <> [] -> be_val inp = 0 \/ magnitude p <= be_val inp -> eg_encrypt fuel pub inp rs = Done (Some (InvalidParams, None, rs)).
Proof.
  intros fuel p pub inp rs Pp P1' K Hi N0 V. unfold eg_encrypt, fetch_or. rewrite K. cbn [obind]. rewrite (assign_pos p Pp). destruct (pos_sub p (num 1) Pp (pos_num 1 ltac:(reflexivity))) as (p_1 & E1 & P1 & M1); [rewrite mag_num; lia|]. rewrite mag_num in M1. rewrite E1. cbn [obind]. destruct (raw_ok inp Hi N0) as (x & Ex & Nx & Mx & Wx & _). rewrite Ex.
  rewrite mp_lt_ok, mp_gt_ok by (try assumption; try apply P1; try (apply wf_num; rewrite B_eq; reflexivity); rewrite ?Nx, ?(proj2 P1); reflexivity). rewrite mag_num, Mx, M1. assert ((be_val inp <? 1) || (magnitude p - 1 <? be_val inp) = true)%bool as ->; [|reflexivity]. apply Bool.orb_true_iff. rewrite !N.ltb_lt. lia.
Qed.
(* ---- DSA *)
Record dsa_keys (p q g e d : mp) (pub priv : list N) : Prop := mkDsa {
  dk_p : pem_get_mp dsa_p (Some pub) = Done (Some p); dk_q : pem_get_mp dsa_q (Some pub) = Done (Some q); dk_g : pem_get_mp dsa_g (Some pub) = Done (Some g); dk_e : pem_get_mp dsa_e (Some pub) = Done (Some e);
  dk_pp : pem_get_mp dsa_p (Some priv) = Done (Some p); dk_qq : pem_get_mp dsa_q (Some priv) = Done (Some q); dk_gg : pem_get_mp dsa_g (Some priv) = Done (Some g); dk_d : pem_get_mp dsa_d (Some priv) = Done (Some d);
  dk_pos : pos e /\ pos d; dk_range : 1 <= magnitude d <= magnitude q - 1; dk_eq : magnitude e mod magnitude p = magnitude g ^ magnitude d mod magnitude p }.
Lemma dsa_keys_ok : forall fuel p q g rs r1 pub r2 priv rs', pos p -> pos q -> pos g -> magnitude p <> 0 -> 1 < magnitude q -> bytes rs ->
  dsa_key_pair fuel p q g rs = Done (Some ((r1, Some pub), (r2, Some priv), rs')) -> fits pub -> fits priv -> r1 = Success /\ r2 = Success /\ bytes rs' /\ exists e d, dsa_keys p q g e d pub priv.
Proof.
  intros fuel p q g rs r1 pub r2 priv rs' Pp Pq Pg P0 Q2 Hb E F1 F2. unfold dsa_key_pair in E. destruct (random_total fuel 1 q rs Pq ltac:(lia) Q2 Hb) as [E1|(d & rs1 & E1 & Pd & Ld & B1)]; rewrite E1 in E; cbn [obind] in E; [discriminate|].
  destruct (me_mod_n_ok g d p Pg (proj1 Pd) Pp P0) as (b & E2 & Pb & V & _). rewrite E2 in E. cbn [obind] in E. destruct (put_mps None [(dsa_p, p); (dsa_q, q); (dsa_g, g); (dsa_e, b)]) as [a1 a2] eqn:E3. destruct (put_mps None [(dsa_p, p); (dsa_q, q); (dsa_g, g); (dsa_d, d)]) as [a3 a4] eqn:E4. injection E as -> -> -> -> ->.
  destruct (puts_get [(dsa_p, p); (dsa_q, q); (dsa_g, g); (dsa_e, b)] r1 pub) as (S1 & G1 & _); [putsok|exact E3|exact F1|]. destruct (puts_get [(dsa_p, p); (dsa_q, q); (dsa_g, g); (dsa_d, d)] r2 priv) as (S2 & G2 & _); [putsok|exact E4|exact F2|].
  split; [exact S1|]. split; [exact S2|]. split; [exact B1|]. exists b, d. constructor; try (apply G1; inlist); try (apply G2; inlist); [split; assumption|exact Ld|exact V].
Qed.
(* a signature buffer *)
Definition signature (x : list N) (r s : mp) (sg : list N) : Prop := pem_get dsa_x (Some sg) = Done (Some x) /\ pem_get_mp dsa_r (Some sg) = Done (Some r) /\ pem_get_mp dsa_s (Some sg) = Done (Some s).
Lemma signature_ok : forall x r s p1 res sg, octets x -> x <> [] -> pos r -> pos s -> pem_put None dsa_x x = (Success, Some p1) -> put_mps (Some p1) [(dsa_r, r); (dsa_s, s)] = (res, Some sg) -> fits sg -> res = Success /\ signature x r s sg.
Proof.
  intros x r s p1 res sg O Nx Pr Ps E1 E2 F. destruct (rel_put None empty_map dsa_x x rel_empty ltac:(hdr) eq_refl O Nx) as (p' & E' & R & _). rewrite E1 in E'. injection E' as <-. destruct (puts_longer _ _ _ _ E2) as (b & Eb & L). injection Eb as <-. assert (fits p1) as F1 by (unfold fits in *; lia). specialize (R F1).
  assert (dsa_x <> dsa_r /\ dsa_x <> dsa_s /\ dsa_r <> dsa_s) as (D1 & D2 & D3) by (split; [|split]; vm_compute; discriminate).
  destruct (puts_rel [(dsa_r, r); (dsa_s, s)] (Some p1) _ res sg R) as [S1 R2]; try assumption.
  - repeat (apply Forall_cons; [cbn [fst snd]; split; [hdr|split; [rewrite insert_other by assumption; reflexivity|first [apply Pr|apply Ps]]]|]). constructor.
  - apply nodup_ok. vm_compute. reflexivity.
  - split; [exact S1|]. cbn [map_of fold_left fst snd] in R2. unfold signature. split; [|split].
    + rewrite (get_ok _ _ dsa_x R2 ltac:(hdr)). rewrite insert_other, insert_other, insert_same by congruence. reflexivity.
    + apply (get_mp_ok _ _ dsa_r r R2 ltac:(hdr)); [|exact Pr]. rewrite insert_other, insert_same by congruence. reflexivity.
    + apply (get_mp_ok _ _ dsa_s s R2 ltac:(hdr)); [|exact Ps]. apply insert_same.
Qed.
Lemma dsa_number : forall p q g d k h r s w, p <> 0 -> primeN q -> g ^ q mod p = 1 mod p -> s * k mod q = (d * r + h) mod q -> w * s mod q = 1 mod q ->
  g ^ (w * h mod q) * (g ^ d) ^ (w * r mod q) mod p = g ^ k mod p.
Proof.
  intros p q g d k h r s w P Q G S W. pose proof (primeN_ge q Q) as Q2. assert (forall a, g ^ a mod p = g ^ (a mod q) mod p) as Red.
  { intro a. rewrite (N.div_mod' a q) at 1. rewrite N.pow_add_r, N.pow_mul_r, N.mul_mod by exact P. rewrite <- (pow_mod_l p P (a / q) (g ^ q)), G, pow_mod_l by exact P. rewrite N.pow_1_l, <- N.mul_mod by exact P. rewrite N.mul_1_l. reflexivity. }
  rewrite <- N.pow_mul_r, <- N.pow_add_r. rewrite Red. rewrite (Red k). f_equal. f_equal. rewrite N.add_mod, N.mod_mod, (N.mul_mod d), N.mod_mod, <- N.mul_mod, <- N.add_mod by lia. replace (w * h + d * (w * r)) with (w * (d * r + h)) by ring. rewrite N.mul_mod, <- S, <- N.mul_mod by lia. rewrite N.mul_assoc, N.mul_mod, W, <- N.mul_mod by lia. rewrite N.mul_1_l. reflexivity.
Qed.
Lemma prime_gcd : forall q s, primeN q -> 0 < s < q -> N.gcd s q = 1.
Proof.
  intros q s P H. destruct (N.eq_dec (N.gcd s q) 1) as [|E]; [assumption|exfalso]. pose proof (N.gcd_divide_l s q) as [a A]. pose proof (N.gcd_divide_r s q) as [b Hb]. set (t := N.gcd s q) in *. clearbody t. assert (Z.of_N t | Z.of_N q)%Z as D by (exists (Z.of_N b); lia). apply prime_divisors in D; [|exact P]. assert (t = q) by lia. subst t. destruct (N.eq_dec a 0) as [->|]; [lia|nia].
Qed.
Lemma inverse_ok : forall fuel a q, pos a -> small q -> primeN (magnitude q) -> magnitude q <> 2 -> 0 < magnitude a < magnitude q -> (2 * N.to_nat (magnitude q) <= fuel)%nat ->
  exists r, modinv fuel a q = Done (Some r) /\ pos r /\ magnitude r < magnitude q /\ magnitude r * magnitude a mod magnitude q = 1 mod magnitude q.
Proof.
  intros fuel a q Pa (Pq & _ & _) P Q2 L F. assert (N.odd (magnitude q) = true) as O. { destruct (N.odd (magnitude q)) eqn:O; [reflexivity|]. exfalso. rewrite <- N.negb_even in O. apply Bool.negb_false_iff, N.even_spec in O. destruct O as [h Hh]. assert (2 | Z.of_N (magnitude q))%Z as D by (exists (Z.of_N h); lia). apply prime_divisors in D; [|exact P]. lia. }
  unfold modinv. rewrite odd_ok, O by apply Pq. destruct (modinv_rs_ok a q fuel Pa Pq O ltac:(lia)) as (r & E & Pr & Lr & I & _). exists r. split; [exact E|]. split; [exact Pr|]. split; [exact Lr|]. apply I. apply prime_gcd; assumption.
Qed.
Lemma dsa_sign_ok : forall fuel hash p q g e d pub priv inp rs, dsa_keys p q g e d pub priv -> small p -> small q -> pos g -> primeN (magnitude q) -> magnitude q <> 2 ->
  octets inp -> inp <> [] -> bytes (hash inp) -> be_val (hash inp) <> 0 -> bytes rs -> (2 * N.to_nat (magnitude q) <= fuel)%nat ->
  dsa_sign fuel hash priv inp rs = Done None \/ (exists rs', dsa_sign fuel hash priv inp rs = Done (Some (ProcessError, None, rs'))) \/
  exists sg rs', dsa_sign fuel hash priv inp rs = Done (Some (Success, Some sg, rs')) /\ (fits sg -> exists r s k, signature inp r s sg /\ pos r /\ pos s /\ 1 <= k < magnitude q /\
    magnitude r = (magnitude g ^ k mod magnitude p) mod magnitude q /\ magnitude s < magnitude q /\ magnitude s * k mod magnitude q = (magnitude d * magnitude r + be_val (hash inp)) mod magnitude q).
Proof.
  intros fuel hash p q g e d pub priv inp rs [K1 K2 K3 K4 K5 K6 K7 K8 [Pe Pd] Kr Ke] Sp Sq Pg Q Q2 O N0 Hh H0 Hr F. pose proof (primeN_ge _ Q) as Q3. assert (pos q) as Pq by apply Sq. unfold dsa_sign, fetch_or. rewrite K5, K6, K7, K8. cbn [obind].
  destruct (random_total fuel 1 q rs Pq ltac:(lia) ltac:(lia) Hr) as [E1|(k & rs1 & E1 & Pk & Lk & B1)]; rewrite E1; cbn [obind]; [left; reflexivity|]. assert (0 < magnitude k < magnitude q) as Lk' by lia.
  destruct (inverse_ok fuel k q Pk Sq Q Q2 Lk' F) as (ki & E2 & Pki & Lki & Iki). rewrite E2. cbn [obind]. destruct (pow_small g k p Pg Pk Sp) as (t & E3 & Pt & Mt). rewrite E3. cbn [obind]. unfold rem_or. destruct (rem_small t q Pt Sq) as (q1 & r & E4 & Pr & Mr). rewrite E4. cbn [obind]. rewrite (assign_pos r Pr).
  assert (hash inp <> []) as Hn by (intro Z; rewrite Z in H0; apply H0; reflexivity). destruct (raw_ok (hash inp) Hh Hn) as (h & E5 & Nh & Mh & Wh & _). rewrite E5. destruct (pos_mul d r Pd Pr) as [Pdr Mdr]. destruct (mp_add_ok (mp_mul (Some d) r) h (proj1 Pdr) Wh) as (u & E6 & Nu & Mu & Wu & _); [rewrite Mh; clear - H0; lia|]. rewrite E6. cbn [obind]. assert (pos u) as Pu by (split; [exact Wu|rewrite Nu; apply Pdr]).
  destruct (pos_mul u ki Pu Pki) as [Puk Muk]. destruct (rem_small _ q Puk Sq) as (q2 & s & E7 & Ps & Ms). rewrite E7. cbn [obind]. destruct (rel_put None empty_map dsa_x inp rel_empty ltac:(hdr) eq_refl O N0) as (p1 & E8 & _). rewrite E8. destruct (put_mps (Some p1) [(dsa_r, r); (dsa_s, s)]) as [res o] eqn:E9. destruct (puts_longer _ _ _ _ E9) as (sg & Eo & _). rewrite Eo in E9 |- *. clear Eo o.
  right. assert (magnitude s * magnitude k mod magnitude q = (magnitude d * magnitude r + be_val (hash inp)) mod magnitude q) as V.
  { clear - Ms Muk Mu Mdr Mh Iki Q3. rewrite Ms, N.mul_mod_idemp_l, Muk, Mu, Mdr, Mh by lia. set (a := magnitude d * magnitude r + be_val (hash inp)). clearbody a. rewrite <- N.mul_assoc, N.mul_mod, Iki, <- N.mul_mod by lia. rewrite N.mul_1_r. reflexivity. }
  assert (fits sg -> res = Success /\ signature inp r s sg) as SG by (intro Fs; apply (signature_ok inp r s p1 res sg); assumption). clear - SG V Pr Ps Lk' Mr Mt Ms Q3.
  destruct res; try (left; eexists; reflexivity). right. exists sg, rs1. split; [reflexivity|]. intro Fs. destruct (SG Fs) as [_ S2]. exists r, s, (magnitude k). split; [exact S2|]. split; [exact Pr|]. split; [exact Ps|]. split; [clear - Lk'; lia|]. split; [rewrite Mr, Mt; reflexivity|]. split; [rewrite Ms; apply N.mod_lt; clear - Q3; lia|exact V].
Qed.
Lemma dsa_verify_ok : forall fuel hash p q g e d pub priv x r s k sg, dsa_keys p q g e d pub priv -> small p -> small q -> pos g -> primeN (magnitude q) -> magnitude q <> 2 -> magnitude g ^ magnitude q mod magnitude p = 1 mod magnitude p ->
  signature x r s sg -> x <> [] -> bytes (hash x) -> hash x <> [] -> pos r -> pos s -> magnitude r = (magnitude g ^ k mod magnitude p) mod magnitude q -> 0 < magnitude s < magnitude q ->
  magnitude s * k mod magnitude q = (magnitude d * magnitude r + be_val (hash x)) mod magnitude q -> (2 * N.to_nat (magnitude q) <= fuel)%nat ->
  dsa_verify fuel hash pub sg = Done (Some (Success, Some x, [])).
Proof.
  intros fuel hash p q g e d pub priv x r s k sg [K1 K2 K3 K4 K5 K6 K7 K8 [Pe Pd] Kr Ke] Sp Sq Pg Q Q2 G (S1 & S2 & S3) N0 Hh H0 Pr Ps Mr Ls V F. pose proof (primeN_ge _ Q) as Q3. assert (pos q) as Pq by apply Sq. unfold dsa_verify, fetch_or. rewrite K1, K2, K3, K4, S1. cbn [obind]. destruct x as [|x0 x']; [congruence|]. set (x := x0 :: x') in *. clearbody x.
  rewrite S2, S3. cbn [obind]. destruct (inverse_ok fuel s q Ps Sq Q Q2 Ls F) as (si & E1 & Psi & Lsi & Isi). rewrite E1. cbn [obind]. unfold rem_or. destruct (rem_small si q Psi Sq) as (q1 & w & E2 & Pw & Mw). rewrite E2. cbn [obind]. destruct (raw_ok (hash x) Hh H0) as (h & E3 & Nh & Mh & Wh & _). rewrite E3. rewrite (assign_pos w Pw).
  destruct (pos_mul w h Pw (conj Wh Nh)) as [Pwh Mwh]. destruct (rem_small _ q Pwh Sq) as (q2 & u1 & E4 & Pu1 & Mu1). rewrite E4. cbn [obind]. destruct (pos_mul w r Pw Pr) as [Pwr Mwr]. destruct (rem_small _ q Pwr Sq) as (q3 & u2 & E5 & Pu2 & Mu2). rewrite E5. cbn [obind]. rewrite (assign_pos u1 Pu1), (assign_pos u2 Pu2).
  destruct (pow_small g u1 p Pg Pu1 Sp) as (v & E6 & Pv & Mv). rewrite E6. cbn [obind]. destruct (pow_small e u2 p Pe Pu2 Sp) as (e2 & E7 & Pe2 & Me2). rewrite E7. cbn [obind]. destruct (pos_mul v e2 Pv Pe2) as [Pve Mve]. destruct (rem_small _ p Pve Sp) as (q4 & v2 & E8 & Pv2 & Mv2). rewrite E8. cbn [obind]. rewrite (assign_pos v2 Pv2). destruct (rem_small v2 q Pv2 Sq) as (q5 & v3 & E9 & Pv3 & Mv3). rewrite E9. cbn [obind]. destruct (rem_small r q Pr Sq) as (q6 & r2 & E10 & Pr2 & Mr2). rewrite E10. cbn [obind]. rewrite (assign_pos v3 Pv3), (assign_pos r2 Pr2), (eq_pos v3 r2 Pv3 Pr2).
  assert (magnitude v3 = magnitude r2) as ->; [|rewrite N.eqb_refl; reflexivity]. assert (magnitude p <> 0) as P0 by (destruct Sp as (_ & L & _); lia). clear - Mv3 Mv2 Mve Mv Me2 Mu1 Mu2 Mwh Mwr Mw Mh Ke Mr2 Mr V G Q Isi P0 Q3.
  rewrite Mr2, Mr, N.mod_mod, Mv3, Mv2, Mve, Mv, Me2 by lia. f_equal. rewrite <- N.mul_mod by exact P0. rewrite N.mul_mod by exact P0. rewrite <- (pow_mod_l _ P0 (magnitude u2)), Ke, pow_mod_l by exact P0. rewrite <- N.mul_mod by exact P0. rewrite Mu1, Mu2, Mwh, Mwr, Mh, Mr. rewrite Mr in V.
  apply (dsa_number _ (magnitude q) _ _ k _ _ (magnitude s)); try assumption. rewrite Mw, N.mul_mod_idemp_l by lia. exact Isi.
Qed.
(* the verdict on any signature with 0 < s < q, under any key *)
Lemma dsa_verdict : forall fuel hash p q g e key x r s sg w, pem_get_mp dsa_p (Some key) = Done (Some p) -> pem_get_mp dsa_q (Some key) = Done (Some q) -> pem_get_mp dsa_g (Some key) = Done (Some g) -> pem_get_mp dsa_e (Some key) = Done (Some e) ->
  small p -> small q -> primeN (magnitude q) -> magnitude q <> 2 -> signature x r s sg -> x <> [] -> bytes (hash x) -> hash x <> [] -> 0 < magnitude s < magnitude q -> w * magnitude s mod magnitude q = 1 -> (2 * N.to_nat (magnitude q) <= fuel)%nat ->
  dsa_verify fuel hash key sg = Done (Some (if (magnitude g ^ (w * be_val (hash x) mod magnitude q) * magnitude e ^ (w * magnitude r mod magnitude q) mod magnitude p) mod magnitude q =? magnitude r mod magnitude q then (Success, Some x, []) else (InvalidSignature, None, []))).
Proof.
  intros fuel hash p q g e key x r s sg w0 K1 K2 K3 K4 Sp Sq Q Q2 (S1 & S2 & S3) N0 Hh H0 Ls W F. pose proof (get_mp_pos _ _ _ K3) as Pg. pose proof (get_mp_pos _ _ _ K4) as Pe. pose proof (get_mp_pos _ _ _ S2) as Pr. pose proof (get_mp_pos _ _ _ S3) as Ps. pose proof (primeN_ge _ Q) as Q3. assert (pos q) as Pq by apply Sq. unfold dsa_verify, fetch_or. rewrite K1, K2, K3, K4, S1. cbn [obind]. destruct x as [|x0 x']; [congruence|]. set (x := x0 :: x') in *. clearbody x.
  rewrite S2, S3. cbn [obind]. destruct (inverse_ok fuel s q Ps Sq Q Q2 Ls F) as (si & E1 & Psi & Lsi & Isi). rewrite E1. cbn [obind]. unfold rem_or. destruct (rem_small si q Psi Sq) as (q1 & w & E2 & Pw & Mw). rewrite E2. cbn [obind]. destruct (raw_ok (hash x) Hh H0) as (h & E3 & Nh & Mh & Wh & _). rewrite E3. rewrite (assign_pos w Pw).
  destruct (pos_mul w h Pw (conj Wh Nh)) as [Pwh Mwh]. destruct (rem_small _ q Pwh Sq) as (q2 & u1 & E4 & Pu1 & Mu1). rewrite E4. cbn [obind]. destruct (pos_mul w r Pw Pr) as [Pwr Mwr]. destruct (rem_small _ q Pwr Sq) as (q3 & u2 & E5 & Pu2 & Mu2). rewrite E5. cbn [obind]. rewrite (assign_pos u1 Pu1), (assign_pos u2 Pu2).
  destruct (pow_small g u1 p Pg Pu1 Sp) as (v & E6 & Pv & Mv). rewrite E6. cbn [obind]. destruct (pow_small e u2 p Pe Pu2 Sp) as (e2 & E7 & Pe2 & Me2). rewrite E7. cbn [obind]. destruct (pos_mul v e2 Pv Pe2) as [Pve Mve]. destruct (rem_small _ p Pve Sp) as (q4 & v2 & E8 & Pv2 & Mv2). rewrite E8. cbn [obind]. rewrite (assign_pos v2 Pv2). destruct (rem_small v2 q Pv2 Sq) as (q5 & v3 & E9 & Pv3 & Mv3). rewrite E9. cbn [obind]. destruct (rem_small r q Pr Sq) as (q6 & r2 & E10 & Pr2 & Mr2). rewrite E10. cbn [obind]. rewrite (assign_pos v3 Pv3), (assign_pos r2 Pr2), (eq_pos v3 r2 Pv3 Pr2).
  assert (magnitude p <> 0) as P0 by (destruct Sp as (_ & L & _); lia). assert (magnitude w mod magnitude q = w0 mod magnitude q) as WW.
  { clear - Isi W Q3 Mw. assert (magnitude q <> 0) as Z by lia. rewrite Mw, N.mod_mod by exact Z. rewrite <- (N.mul_1_r w0), <- (N.mul_mod_idemp_r w0) by exact Z. assert (1 mod magnitude q = magnitude si * magnitude s mod magnitude q) as -> by (symmetry; exact Isi). rewrite N.mul_mod_idemp_r by exact Z. replace (w0 * (magnitude si * magnitude s)) with (magnitude si * (w0 * magnitude s)) by ring. rewrite <- (N.mul_mod_idemp_r (magnitude si)), W, N.mul_1_r by exact Z. reflexivity. }
  assert (forall y, magnitude w * y mod magnitude q = w0 * y mod magnitude q) as WY by (intro y; rewrite <- (N.mul_mod_idemp_l (magnitude w)), WW, N.mul_mod_idemp_l by (clear - Q3; lia); reflexivity).
  assert (magnitude v3 = (magnitude g ^ (w0 * be_val (hash x) mod magnitude q) * magnitude e ^ (w0 * magnitude r mod magnitude q) mod magnitude p) mod magnitude q) as <-.
  { clear - Mv3 Mv2 Mve Mv Me2 Mu1 Mu2 Mwh Mwr Mh P0 WY. rewrite Mv3, Mv2, Mve, Mv, Me2, <- N.mul_mod, Mu1, Mu2, Mwh, Mwr, Mh, !WY by exact P0. reflexivity. }
  rewrite Mr2. destruct (_ =? _); reflexivity.
Qed.
(* the forgery: r = 1 and s = 0 *)
Lemma dsa_forgery : forall fuel hash p q g e key x r s sg, pem_get_mp dsa_p (Some key) = Done (Some p) -> pem_get_mp dsa_q (Some key) = Done (Some q) -> pem_get_mp dsa_g (Some key) = Done (Some g) -> pem_get_mp dsa_e (Some key) = Done (Some e) ->
  1 < magnitude p -> 1 < magnitude q -> N.odd (magnitude q) = true -> signature x r s sg -> x <> [] -> bytes (hash x) -> hash x <> [] -> magnitude r = 1 -> magnitude s = 0 -> (N.to_nat (magnitude q) < fuel)%nat ->
  dsa_verify fuel hash key sg = Done (Some (Success, Some x, [])).
Proof.
  intros fuel hash p q g e key x r s sg K1 K2 K3 K4 P1 Q1 Oq (S1 & S2 & S3) N0 Hh H0 Mr Ms F. pose proof (get_mp_pos _ _ _ K1) as Pp. pose proof (get_mp_pos _ _ _ K2) as Pq. pose proof (get_mp_pos _ _ _ K3) as Pg. pose proof (get_mp_pos _ _ _ K4) as Pe. pose proof (get_mp_pos _ _ _ S2) as Pr. pose proof (get_mp_pos _ _ _ S3) as Ps.
  unfold dsa_verify, fetch_or. rewrite K1, K2, K3, K4, S1. cbn [obind]. destruct x as [|x0 x']; [congruence|]. set (x := x0 :: x') in *. clearbody x. rewrite S2, S3. cbn [obind].
  unfold modinv. rewrite odd_ok, Oq by apply Pq. destruct (modinv_rs_ok s q fuel Ps Pq Oq ltac:(rewrite Ms; lia)) as (si & E1 & Psi & _ & _ & Z). rewrite E1. cbn [obind]. assert (magnitude si = 0) as Zs by (apply Z; rewrite Ms, N.gcd_0_l; lia).
  unfold rem_or. destruct (div_below si q Psi Pq ltac:(lia)) as (q1 & w & E2 & Pw & Mw). rewrite E2. cbn [obind]. destruct (raw_ok (hash x) Hh H0) as (h & E3 & Nh & Mh & Wh & _). rewrite E3. rewrite (assign_pos w Pw). rewrite Zs in Mw.
  destruct (pos_mul w h Pw (conj Wh Nh)) as [Pwh Mwh]. rewrite Mw, N.mul_0_l in Mwh. destruct (div_below _ q Pwh Pq ltac:(lia)) as (q2 & u1 & E4 & Pu1 & Mu1). rewrite E4. cbn [obind]. destruct (pos_mul w r Pw Pr) as [Pwr Mwr]. rewrite Mw, N.mul_0_l in Mwr. destruct (div_below _ q Pwr Pq ltac:(lia)) as (q3 & u2 & E5 & Pu2 & Mu2). rewrite E5. cbn [obind]. rewrite (assign_pos u1 Pu1), (assign_pos u2 Pu2).
  destruct (pow_zero g u1 p Pu1 Pp ltac:(lia) P1) as (v & E6 & Pv & Mv). rewrite E6. cbn [obind]. destruct (pow_zero e u2 p Pu2 Pp ltac:(lia) P1) as (e2 & E7 & Pe2 & Me2). rewrite E7. cbn [obind]. destruct (pos_mul v e2 Pv Pe2) as [Pve Mve]. rewrite Mv, Me2 in Mve. destruct (div_below _ p Pve Pp ltac:(lia)) as (q4 & v2 & E8 & Pv2 & Mv2). rewrite E8. cbn [obind]. rewrite (assign_pos v2 Pv2). destruct (div_below v2 q Pv2 Pq ltac:(lia)) as (q5 & v3 & E9 & Pv3 & Mv3). rewrite E9. cbn [obind]. destruct (div_below r q Pr Pq ltac:(lia)) as (q6 & r2 & E10 & Pr2 & Mr2). rewrite E10. cbn [obind]. rewrite (assign_pos v3 Pv3), (assign_pos r2 Pr2), (eq_pos v3 r2 Pv3 Pr2).
  assert (magnitude v3 = magnitude r2) as -> by lia. rewrite N.eqb_refl. reflexivity.
Qed.
(* ---- parameters *)
Lemma verify_dl_sound : forall fuel p q g rs rs', pos p -> pos q -> pos g -> 1 < magnitude p -> verify_dl fuel p q g rs = Done (Some (Success, rs')) ->
  1 < magnitude g < magnitude p - 1 /\ (exists rs1, is_prime fuel q rs = Done (Some (true, rs1)) /\ exists rs2, is_prime fuel p rs1 = Done (Some (true, rs2))) /\ magnitude q <> 0 /\ (magnitude p - 1) mod magnitude q = 0 /\ magnitude g ^ magnitude q mod magnitude p = 1.
Proof.
  intros fuel p q g rs rs' Pp Pq Pg P1 E. unfold verify_dl in E. rewrite (assign_pos p Pp) in E. destruct (pos_sub p (num 1) Pp (pos_num 1 ltac:(reflexivity))) as (p_1 & E1 & Q1 & M1); [rewrite mag_num; lia|]. rewrite mag_num in M1. rewrite E1 in E. cbn [obind] in E.
  rewrite mp_le_ok, mp_ge_ok in E by (try apply Pg; try apply Q1; try (apply wf_num; rewrite B_eq; reflexivity); rewrite (proj2 Pg), ?(proj2 Q1); reflexivity). rewrite mag_num, M1 in E. destruct (N.leb_spec (magnitude g) 1) as [C1|C1]; [discriminate|]. destruct (N.leb_spec (magnitude p - 1) (magnitude g)) as [C2|C2]; [discriminate|]. cbn [orb] in E. split; [lia|].
  destruct (is_prime fuel q rs) as [[[[|] rs1]|]|] eqn:I1; cbn [obind] in E; try discriminate. destruct (is_prime fuel p rs1) as [[[[|] rs2]|]|] eqn:I2; cbn [obind] in E; try discriminate. split; [exists rs1; split; [reflexivity|exists rs2; exact I2]|].
  destruct (N.eq_dec (magnitude q) 0) as [Z|Z]. { unfold mp_div in E. rewrite mag in Z. apply is_zero_dv in Z. rewrite Z in E. cbn [obind] in E. discriminate. } split; [exact Z|].
  destruct (mp_div_ok p_1 q Q1 Pq Z) as (a & r & E2 & _ & Pr & V & _). rewrite E2 in E. cbn [obind] in E. rewrite (ne_zero r Pr) in E. destruct (N.eqb_spec (magnitude r) 0) as [R|R]; [|discriminate]. cbn [negb] in E. split; [rewrite <- M1, V, R, N.add_0_r; apply N.mod_mul; exact Z|].
  destruct (me_mod_n_ok g q p Pg (proj1 Pq) Pp ltac:(lia)) as (t & E3 & Pt & Vt & _). rewrite E3 in E. cbn [obind] in E. unfold mp_ne in E. rewrite (eq_num t 1 Pt) in E by reflexivity. destruct (N.eqb_spec (magnitude t) 1) as [T|T]; [|discriminate]. rewrite <- Vt, T. apply N.mod_small. exact P1.
Qed.
Lemma gen_random_bytes : forall n rs a rs', bytes rs -> gen_random n rs = Done (Some (a, rs')) -> bytes rs'.
Proof. intros n rs a rs' Hb E. unfold gen_random in E. destruct (Nat.ltb _ _); [discriminate|]. cbv zeta in E. destruct (mp_div _ n) as [o|]; cbn [obind] in E; [|discriminate]. injection E as _ <-. apply CipherLib.bytes_skipn. exact Hb. Qed.
Lemma random_base_bytes : forall fuel p rs a rs', bytes rs -> random_base fuel p rs = Done (Some (a, rs')) -> bytes rs'.
Proof.
  induction fuel as [|fuel IH]; intros p rs a rs' Hb E; cbn [random_base] in E; [discriminate|]. destruct (gen_random p rs) as [[[[b|] rs1]|]|] eqn:G; cbn [obind] in E; try discriminate; pose proof (gen_random_bytes _ _ _ _ Hb G) as B1; [destruct (mp_le b (num 1)); [apply (IH _ _ _ _ B1 E)|]|]; injection E as _ <-; exact B1.
Qed.
Lemma fermat_loop_bytes : forall k n n_1 n_2 rs v rs', bytes rs -> fermat_loop k n n_1 n_2 rs = Done (Some (v, rs')) -> bytes rs'.
Proof.
  induction k as [|k IH]; intros n n_1 n_2 rs v rs' Hb E; cbn [fermat_loop] in E; [injection E as _ <-; exact Hb|]. destruct (gen_random n_2 rs) as [[[b rs1]|]|] eqn:G; cbn [obind] in E; try discriminate. pose proof (gen_random_bytes _ _ _ _ Hb G) as B1. destruct (mp_add b (num 1)) as [b'|]; cbn [obind] in E; [|discriminate]. destruct (me_mod_n b' n_1 n) as [r|]; cbn [obind] in E; [|discriminate]. destruct (mp_eq r (num 1)); [apply (IH _ _ _ _ _ _ B1 E)|injection E as _ <-; exact B1].
Qed.
Lemma is_prime_bytes : forall fuel n rs b rs', bytes rs -> is_prime fuel n rs = Done (Some (b, rs')) -> bytes rs'.
Proof.
  intros fuel n rs b rs' Hb E. unfold is_prime in E. destruct (fermat n 7 rs) as [[[v rs1]|]|] eqn:F; cbn [obind] in E; try discriminate.
  assert (bytes rs1) as B1. { unfold fermat in F. destruct (mp_le n (num 2)); [injection F as _ <-; exact Hb|]. destruct (is_even n); [injection F as _ <-; exact Hb|]. destruct (mp_sub (Some (assign None n)) (num 1)) as [n_1|]; cbn [obind] in F; [|discriminate]. destruct (mp_sub (Some (assign None n_1)) (num 1)) as [n_2|]; cbn [obind] in F; [|discriminate]. apply (fermat_loop_bytes _ _ _ _ _ _ _ Hb F). }
  destruct v; [|injection E as _ <-; exact B1]. unfold miller_rabin in E. destruct (is_even n); [injection E as _ <-; exact B1|]. destruct (mp_eq n (num 2)); [injection E as _ <-; exact B1|]. destruct (mp_sub (Some (assign None n)) (num 1)) as [n_1|]; cbn [obind] in E; [|discriminate]. destruct (div_2p n_1 1) as [[d dd]|]; cbn [obind] in E; [|discriminate]. destruct (two_power fuel n_1 1 d) as [[[k m]|]|]; cbn [obind] in E; try discriminate. destruct (mp_sub (Some (assign None n_1)) (num 1)) as [p|]; cbn [obind] in E; [|discriminate].
  destruct (if mp_eq p (num 1) then Done (Some (Some p, rs1)) else random_base fuel p rs1) as [[[a rs2]|]|] eqn:R; cbn [obind] in E; try discriminate. assert (bytes rs2) as B2 by (destruct (mp_eq p (num 1)); [injection R as _ <-; exact B1|apply (random_base_bytes _ _ _ _ _ B1 R)]).
  destruct a as [a|]; [|injection E as _ <-; exact B2]. destruct (me_mod_n a m n) as [c|]; cbn [obind] in E; [|discriminate]. destruct (_ || _)%bool; [injection E as _ <-; exact B2|]. destruct (squarings 14 n n_1 c) as [v|]; cbn [obind] in E; [|discriminate]. injection E as _ <-. exact B2.
Qed.
Lemma verify_dl_complete : forall fuel p q g rs, small p -> small q -> pos g -> size p = 1%nat -> size q = 1%nat -> primeN (magnitude p) -> primeN (magnitude q) -> 2 < magnitude q -> ~ N.divide (2 ^ 16) (magnitude p - 1) -> ~ N.divide (2 ^ 16) (magnitude q - 1) -> bytes rs ->
  1 < magnitude g < magnitude p - 1 -> (magnitude p - 1) mod magnitude q = 0 -> magnitude g ^ magnitude q mod magnitude p = 1 ->
  verify_dl fuel p q g rs = Done None \/ exists rs', verify_dl fuel p q g rs = Done (Some (Success, rs')).
Proof.
  intros fuel p q g rs Sp Sq Pg L1 L2 P Q Q2 D1 D2 Hb G V W. pose proof (primeN_ge _ P) as P2. assert (pos p) as Pp by apply Sp. assert (pos q) as Pq by apply Sq. unfold verify_dl. rewrite (assign_pos p Pp). destruct (pos_sub p (num 1) Pp (pos_num 1 ltac:(reflexivity))) as (p_1 & E1 & Q1 & M1); [rewrite mag_num; clear - P2; lia|]. rewrite mag_num in M1. rewrite E1. cbn [obind].
  rewrite mp_le_ok, mp_ge_ok by (try apply Pg; try apply Q1; try (apply wf_num; rewrite B_eq; reflexivity); rewrite (proj2 Pg), ?(proj2 Q1); reflexivity). rewrite mag_num, M1. assert (magnitude g <=? 1 = false) as -> by (apply N.leb_gt; clear - G; lia). assert (magnitude p - 1 <=? magnitude g = false) as -> by (apply N.leb_gt; clear - G; lia). cbn [orb].
  destruct (is_prime_prime fuel q rs Pq L2 Q Q2 D2 Hb) as [I1|(rs1 & I1)]; rewrite I1; cbn [obind]; [left; reflexivity|]. pose proof (is_prime_bytes _ _ _ _ _ Hb I1) as B1. destruct (is_prime_prime fuel p rs1 Pp L1 P ltac:(clear - G; lia) D1 B1) as [I2|(rs2 & I2)]; rewrite I2; cbn [obind]; [left; reflexivity|]. right.
  destruct (rem_small p_1 q Q1 Sq) as (a & r & E2 & Pr & Mr). rewrite E2. cbn [obind]. rewrite (ne_zero r Pr), Mr, M1, V. change (negb (0 =? 0)) with false. cbv iota. destruct (pow_small g q p Pg Pq Sp) as (t & E3 & Pt & Mt). rewrite E3. cbn [obind]. unfold mp_ne. rewrite (eq_num t 1 Pt) by reflexivity. rewrite Mt, W. exists rs2. reflexivity.
Qed.
