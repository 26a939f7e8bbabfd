(* Random values and primality tests. *)
From Verif Require Import Words MpModel MpModel2 MpSpec MpProofs MpProofs2 MpProofs3 MpProofs4 MpProofs5 NumTheory.
From Coq Require Import Znumtheory.
Open Scope N_scope.

Lemma bytes_wd : forall l, bytes l -> wd l.
Proof. intros l H. unfold wd. apply Forall_forall. intros x Hx. unfold bytes in H. rewrite Forall_forall in H. specialize (H x Hx). unfold byte in H. pose proof B_gt. lia. Qed.
Lemma gen_random_ok : forall n rs, pos n -> magnitude n <> 0 -> bytes rs -> (size n <= length rs)%nat ->
  exists m, gen_random n rs = Done (Some (Some m, skipn (size n) rs)) /\ pos m /\ magnitude m mod magnitude n = dv (rev (firstn (size n) rs)) mod magnitude n /\ (magnitude n < B -> trimmed_digits n -> magnitude m < magnitude n).
Proof.
  intros n rs Pn N0 H L. unfold gen_random. assert (Nat.ltb (length rs) (size n) = false) as -> by (apply Nat.ltb_ge; exact L). set (r := mkMp false _). pose proof (wf_size n (proj1 Pn)) as S1.
  assert (pos r) as Pr. { split; [|reflexivity]. apply wf2. unfold r. cbn [data]. split; [intro E; apply (f_equal (@length N)) in E; rewrite rev_length, firstn_length_le in E by exact L; cbn [length] in E; lia|]. apply bytes_wd. apply Forall_rev. apply CipherLib.bytes_firstn. exact H. }
  destruct (mp_div_ok r n Pr Pn N0) as (q & m & E & Pq & Pm & V & Lm). rewrite E. cbn [obind]. exists m. split; [reflexivity|]. split; [exact Pm|]. split; [|intros HB T; apply Lm; [exact T|apply one_digit_leads, HB]].
  assert (dv (rev (firstn (size n) rs)) = magnitude r) as -> by (rewrite mag; reflexivity). rewrite V, N.add_comm, N.mod_add by exact N0. reflexivity.
Qed.
Lemma sub1 : forall n, pos n -> size n = 1%nat -> magnitude n <> 0 -> exists r, mp_sub (Some (assign None n)) (num 1) = Done r /\ pos r /\ size r = 1%nat /\ magnitude r = magnitude n - 1.
Proof.
  intros n Pn Sn N0. rewrite assign_pos by exact Pn. destruct (mp_sub_ok n (num 1) (proj1 Pn) (wf_num 1 ltac:(rewrite B_eq; reflexivity)) N0) as (r & E & Wr & Nr & Mr & _ & Sr); [rewrite mag_num; discriminate|]. rewrite mag_num in *. assert (magnitude n <? 1 = false) as F by (apply N.ltb_ge; lia). rewrite F in *.
  exists r. split; [exact E|]. split; [split; assumption|]. split; [|exact Mr]. pose proof (wf_size r Wr). rewrite Sn in Sr. change (size (num 1)) with 1%nat in Sr. cbn in Sr. lia.
Qed.
Lemma one_trim : forall n, pos n -> size n = 1%nat -> magnitude n <> 0 -> trimmed_digits n.
Proof. intros n Pn Sn N0. unfold trimmed_digits. rewrite (size1 n Pn Sn). exact N0. Qed.
(* one-digit moduli: powers are exact *)
Lemma me_exact : forall m e n, pos m -> well_formed e -> pos n -> size n = 1%nat -> magnitude n <> 0 -> exists r, me_mod_n m e n = Done r /\ pos r /\ magnitude r = magnitude m ^ magnitude e mod magnitude n.
Proof.
  intros m e n Pm We Pn Sn N0. destruct (me_mod_n_ok m e n Pm We Pn N0) as (r & E & Pr & V & L). exists r. split; [exact E|]. split; [exact Pr|]. rewrite <- V. symmetry. apply N.mod_small, L; [apply num_size; assumption|apply one_trim; assumption].
Qed.
Lemma eq_num : forall a d, pos a -> d < 2 ^ 64 -> mp_eq a (num d) = (magnitude a =? d).
Proof. intros a d [W Na] H. rewrite mp_eq_ok by (try exact W; apply wf_num; rewrite B_eq; exact H). rewrite mag_num, Na. reflexivity. Qed.
Lemma eq_pos : forall a b, pos a -> pos b -> mp_eq a b = (magnitude a =? magnitude b).
Proof. intros a b [W Na] [W2 Nb]. rewrite mp_eq_ok by assumption. rewrite Na, Nb. reflexivity. Qed.
(* arithmetic of the tests *)
Fixpoint sq (sn : nat) (n b : N) : bool :=
  match sn with O => false | S sn => let b := b * b mod n in if b =? 1 then false else if b =? n - 1 then true else sq sn n b end.
Lemma squarings_ok : forall sn n n_1 b, pos n -> size n = 1%nat -> magnitude n <> 0 -> pos n_1 -> magnitude n_1 = magnitude n - 1 -> pos b -> squarings sn n n_1 b = Done (sq sn (magnitude n) (magnitude b)).
Proof.
  induction sn as [|sn IH]; intros n n_1 b Pn Sn N0 P1 M1 Pb; [reflexivity|]. cbn [squarings sq]. destruct (me_exact b (num 2) n Pb (wf_num 2 ltac:(rewrite B_eq; reflexivity)) Pn Sn N0) as (r & E & Pr & V). rewrite E. cbn [obind]. rewrite mag_num in V. replace (magnitude b ^ 2) with (magnitude b * magnitude b) in V by (rewrite N.pow_2_r; reflexivity).
  rewrite (eq_num r 1 Pr) by reflexivity. rewrite (eq_pos r n_1 Pr P1), M1. rewrite <- V. cbv zeta. destruct (magnitude r =? 1); [reflexivity|]. destruct (magnitude r =? magnitude n - 1); [reflexivity|]. apply IH; assumption.
Qed.
Definition primeN (n : N) : Prop := prime (Z.of_N n).
Lemma primeN_ge : forall n, primeN n -> 2 <= n. Proof. intros n H. apply prime_ge_2 in H. lia. Qed.
Lemma flt_N : forall n a, primeN n -> 0 < a < n -> a ^ (n - 1) mod n = 1.
Proof.
  intros n a P H. pose proof (primeN_ge n P) as G. destruct (fermat_inverse (Z.of_N n) (Z.of_N a) P) as [k K]; [apply small_not_divide; lia|]. apply N2Z.inj. rewrite N2Z.inj_mod, N2Z.inj_pow, N2Z.inj_sub by lia. change (Z.of_N 1) with 1%Z.
  replace (Z.of_N a ^ (Z.of_N n - 1))%Z with (1 + k * Z.of_N n)%Z by lia. rewrite Z.mod_add by lia. apply Z.mod_small. lia.
Qed.
Lemma root_of_one : forall n b, primeN n -> b < n -> b * b mod n = 1 -> b = 1 \/ b = n - 1.
Proof.
  intros n b P L H. pose proof (primeN_ge n P) as G. assert (Z.of_N n | (Z.of_N b - 1) * (Z.of_N b + 1))%Z as D.
  { apply (f_equal Z.of_N) in H. rewrite N2Z.inj_mod, N2Z.inj_mul in H. apply Z.mod_divide; [lia|]. replace ((Z.of_N b - 1) * (Z.of_N b + 1))%Z with (Z.of_N b * Z.of_N b - 1)%Z by ring. rewrite Zminus_mod, H. change (Z.of_N 1) with 1%Z. rewrite (Z.mod_small 1) by lia. reflexivity. }
  apply prime_mult in D; [|exact P]. destruct D as [[k K]|[k K]].
  - left. destruct (Z.eq_dec k 0) as [->|Z]; [lia|]. exfalso. nia.
  - right. assert (k = 1)%Z by nia. subst k. lia.
Qed.
Lemma pow_mod_l : forall n, n <> 0 -> forall e c, (c mod n) ^ e mod n = c ^ e mod n.
Proof. intros n G. induction e as [|e IH] using N.peano_ind; intro c; [reflexivity|]. rewrite !N.pow_succ_r'. rewrite (N.mul_mod c), <- IH, N.mul_mod by lia. rewrite N.mod_mod by lia. reflexivity. Qed.
Lemma sq_prime : forall n, primeN n -> 2 < n -> forall j sn b, b < n -> b <> 1 -> b <> n - 1 -> b ^ (2 ^ N.of_nat j) mod n = 1 -> (j <= sn + 1)%nat -> sq sn n b = true.
Proof.
  intros n P G. induction j as [|j IH]; intros sn b L B1 B2 H J.
  - change (2 ^ N.of_nat 0) with 1 in H. rewrite N.pow_1_r, N.mod_small in H by exact L. contradiction.
  - assert (b * b mod n <> 1) as R by (intro E; destruct (root_of_one n b P L E); contradiction). assert ((b * b mod n) ^ (2 ^ N.of_nat j) mod n = 1) as H'.
    { rewrite <- H. rewrite Nat2N.inj_succ, N.pow_succ_r', N.pow_mul_r, N.pow_2_r. apply pow_mod_l. lia. }
    destruct sn as [|sn].
    + assert (j = O) by lia. subst j. change (2 ^ N.of_nat 0) with 1 in H'. rewrite N.pow_1_r, N.mod_mod in H' by lia. contradiction.
    + cbn [sq]. destruct (N.eqb_spec (b * b mod n) 1) as [E|_]; [contradiction|]. destruct (N.eqb_spec (b * b mod n) (n - 1)) as [_|E]; [reflexivity|]. apply IH; try assumption; [apply N.mod_lt; lia|lia].
Qed.
(* ---- the Fermat test *)
Lemma add1 : forall a, pos a -> exists r, mp_add (Some a) (num 1) = Done r /\ pos r /\ magnitude r = magnitude a + 1.
Proof. intros a [W Na]. destruct (mp_add_ok a (num 1) W (wf_num 1 ltac:(rewrite B_eq; reflexivity))) as (r & E & N1 & M & Wr & _); [rewrite mag_num; lia|]. exists r. rewrite mag_num in M. split; [exact E|]. split; [split; [exact Wr|congruence]|exact M]. Qed.
Lemma skipn_1 : forall (A : Type) k (l : list A), skipn k (skipn 1 l) = skipn (S k) l.
Proof. intros A k l. destruct l; [destruct k; reflexivity|reflexivity]. Qed.
Lemma fermat_loop_prime : forall n n_1 n_2, pos n -> size n = 1%nat -> primeN (magnitude n) -> 2 < magnitude n -> pos n_1 -> magnitude n_1 = magnitude n - 1 -> pos n_2 -> size n_2 = 1%nat -> magnitude n_2 = magnitude n - 2 ->
  forall k rs, bytes rs -> fermat_loop k n n_1 n_2 rs = Done (if Nat.ltb (length rs) k then None else Some (true, skipn k rs)).
Proof.
  intros n n_1 n_2 Pn Sn P G P1 M1 P2 S2 M2. induction k as [|k IH]; intros rs Hb; [reflexivity|]. cbn [fermat_loop]. destruct rs as [|x rs].
  - unfold gen_random. rewrite S2. reflexivity.
  - destruct (gen_random_ok n_2 (x :: rs) P2 ltac:(lia) Hb) as (a & E & Pa & _ & L); [rewrite S2; cbn [length]; lia|]. rewrite E, S2. cbn [obind skipn]. specialize (L (num_size _ P2 S2) (one_trim _ P2 S2 ltac:(lia))).
    destruct (add1 a Pa) as (b & E2 & Pb & Mb). rewrite E2. cbn [obind]. destruct (me_exact b n_1 n Pb (proj1 P1) Pn Sn ltac:(lia)) as (r & E3 & Pr & V). rewrite E3. cbn [obind]. rewrite (eq_num r 1 Pr) by reflexivity. rewrite V, M1, flt_N by (try exact P; lia). cbn [N.eqb Pos.eqb]. rewrite IH by (inversion Hb; assumption). reflexivity.
Qed.
Lemma fermat_prime : forall n k rs, pos n -> size n = 1%nat -> primeN (magnitude n) -> bytes rs ->
  fermat n k rs = Done (if magnitude n =? 2 then Some (true, rs) else if Nat.ltb (length rs) k then None else Some (true, skipn k rs)).
Proof.
  intros n k rs Pn Sn P Hb. pose proof (primeN_ge _ P) as G. unfold fermat. rewrite mp_le_ok by (try apply (proj1 Pn); try (apply wf_num; rewrite B_eq; reflexivity); rewrite (proj2 Pn); reflexivity). rewrite mag_num, (eq_num n 2 Pn) by reflexivity. destruct (N.eqb_spec (magnitude n) 2) as [E|E].
  - rewrite E. reflexivity.
  - assert (magnitude n <=? 2 = false) as -> by (apply N.leb_gt; lia). rewrite even_ok by apply (proj1 Pn). assert (N.even (magnitude n) = false) as ->.
    { destruct (N.even (magnitude n)) eqn:Ev; [|reflexivity]. exfalso. apply N.even_spec in Ev. destruct Ev as [h Hh]. assert (2 | Z.of_N (magnitude n))%Z as D by (exists (Z.of_N h); lia). apply prime_divisors in D; [|exact P]. lia. }
    destruct (sub1 n Pn Sn ltac:(lia)) as (n_1 & E1 & P1 & S1 & M1). rewrite E1. cbn [obind]. destruct (sub1 n_1 P1 S1 ltac:(lia)) as (n_2 & E2 & P2 & S2 & M2). rewrite E2. cbn [obind]. apply fermat_loop_prime; try assumption; lia.
Qed.
(* ---- the Miller-Rabin test *)
Lemma two_power_ok : forall fuel n_1 pn d, pos n_1 -> magnitude n_1 <> 0 -> pos d -> magnitude n_1 = 2 ^ N.of_nat pn * magnitude d ->
  (two_power fuel n_1 pn d = Done None /\ (fuel < N.to_nat (magnitude d))%nat) \/ exists k m, two_power fuel n_1 pn d = Done (Some (k, m)) /\ pos m /\ magnitude n_1 = 2 ^ N.of_nat k * magnitude m /\ N.odd (magnitude m) = true.
Proof.
  induction fuel as [|fuel IH]; intros n_1 pn d P1 N1 Pd M.
  - left. split; [reflexivity|]. assert (magnitude d <> 0) by (intro Z; rewrite Z in M; lia). lia.
  - cbn [two_power]. destruct (div_2p_ok n_1 (S pn) P1) as (q & r & E & Pq & Pr & Mq & Mr). rewrite E. cbn [obind]. rewrite (eq_num r 0 Pr) by reflexivity.
    assert (2 ^ N.of_nat (S pn) = 2 ^ N.of_nat pn * 2) as T by (rewrite Nat2N.inj_succ, N.pow_succ_r'; ring). assert (2 ^ N.of_nat pn <> 0) as T0 by (apply N.pow_nonzero; lia). rewrite T, M in Mq, Mr. rewrite N.div_mul_cancel_l in Mq by (try exact T0; lia). rewrite N.mul_mod_distr_l in Mr by (try exact T0; lia).
    pose proof (N.div_mod' (magnitude d) 2) as D. destruct (N.eqb_spec (magnitude r) 0) as [Z|Z].
    + assert (magnitude d mod 2 = 0) as Z2 by (rewrite Mr in Z; apply N.eq_mul_0 in Z; tauto). rewrite Z2 in D. destruct (IH n_1 (S pn) q P1 N1 Pq) as [[E2 F]|(k & m & Hk)].
      * rewrite T, Mq, M, D at 1. set (t := 2 ^ N.of_nat pn). clearbody t. set (h := magnitude d / 2). clearbody h. clear. nia.
      * left. split; [exact E2|]. rewrite Mq in F. set (h := magnitude d / 2) in *. clearbody h. clear - D F. lia.
      * right. exists k, m. exact Hk.
    + right. exists pn, d. repeat split; try apply Pd; try exact M. pose proof (N.mod_lt (magnitude d) 2 ltac:(lia)) as L. rewrite Mr in Z. destruct (N.eq_dec (magnitude d mod 2) 0) as [Z2|Z2]; [rewrite Z2, N.mul_0_r in Z; congruence|]. apply N.odd_spec. exists (magnitude d / 2). set (h := magnitude d / 2) in *. set (g := magnitude d mod 2) in *. clearbody h g. clear - D L Z2. lia.
Qed.
Lemma random_base_ok : forall fuel p rs, pos p -> size p = 1%nat -> magnitude p <> 0 -> bytes rs ->
  random_base fuel p rs = Done None \/ exists a rs', random_base fuel p rs = Done (Some (Some a, rs')) /\ pos a /\ 1 < magnitude a < magnitude p /\ bytes rs'.
Proof.
  induction fuel as [|fuel IH]; intros p rs Pp Sp Np Hb; [left; reflexivity|]. cbn [random_base]. destruct rs as [|x rs]; [left; unfold gen_random; rewrite Sp; reflexivity|].
  destruct (gen_random_ok p (x :: rs) Pp Np Hb) as (a & E & Pa & _ & L); [rewrite Sp; cbn [length]; lia|]. rewrite E, Sp. cbn [obind skipn]. specialize (L (num_size _ Pp Sp) (one_trim _ Pp Sp Np)). assert (bytes rs) as Hb' by (inversion Hb; assumption).
  rewrite mp_le_ok by (try apply (proj1 Pa); try (apply wf_num; rewrite B_eq; reflexivity); rewrite (proj2 Pa); reflexivity). rewrite mag_num. destruct (N.leb_spec (magnitude a) 1) as [Z|Z]; [apply IH; assumption|]. right. exists a, rs. repeat split; try apply Pa; try lia; assumption.
Qed.
Lemma miller_rabin_prime : forall fuel n sn rs, pos n -> size n = 1%nat -> primeN (magnitude n) -> 2 < magnitude n -> ~ N.divide (2 ^ N.of_nat (sn + 2)) (magnitude n - 1) -> bytes rs ->
  miller_rabin fuel n sn rs = Done None \/ exists rs', miller_rabin fuel n sn rs = Done (Some (true, rs')).
Proof.
  intros fuel n sn rs Pn Sn P G D Hb. unfold miller_rabin. rewrite even_ok by apply (proj1 Pn). assert (N.even (magnitude n) = false) as Ev.
  { destruct (N.even (magnitude n)) eqn:Ev; [|reflexivity]. exfalso. apply N.even_spec in Ev. destruct Ev as [h Hh]. assert (2 | Z.of_N (magnitude n))%Z as D2 by (exists (Z.of_N h); lia). apply prime_divisors in D2; [|exact P]. lia. }
  rewrite Ev, (eq_num n 2 Pn) by reflexivity. assert (magnitude n =? 2 = false) as -> by (apply N.eqb_neq; lia). destruct (sub1 n Pn Sn ltac:(lia)) as (n_1 & E1 & P1 & S1 & M1). rewrite E1. cbn [obind].
  destruct (div_2p_ok n_1 1 P1) as (d & r & E & Pd & Pr & Md & Mr). rewrite E. cbn [obind]. change (2 ^ N.of_nat 1) with 2 in *.
  assert (magnitude n_1 = 2 ^ N.of_nat 1 * magnitude d) as H1. { change (2 ^ N.of_nat 1) with 2. rewrite Md. apply N.div_exact; [lia|]. rewrite M1. rewrite <- N.negb_odd in Ev. apply Bool.negb_false_iff, N.odd_spec in Ev. destruct Ev as [h Hh]. rewrite Hh. replace (2 * h + 1 - 1) with (h * 2) by lia. apply N.mod_mul. lia. }
  destruct (two_power_ok fuel n_1 1 d P1 ltac:(lia) Pd H1) as [[E2 _]|(k & m & E2 & Pm & Mk & Om)]; [left; rewrite E2; reflexivity|]. rewrite E2. cbn [obind].
  destruct (sub1 n_1 P1 S1 ltac:(lia)) as (p & E3 & Pp & Sp & Mp). rewrite E3. cbn [obind]. rewrite (eq_num p 1 Pp) by reflexivity.
  assert (k <= sn + 1)%nat as K. { destruct (Nat.le_gt_cases k (sn + 1)) as [K|K]; [exact K|]. exfalso. apply D. rewrite <- M1, Mk. exists (2 ^ N.of_nat (k - (sn + 2)) * magnitude m). replace k with (sn + 2 + (k - (sn + 2)))%nat at 1 by lia. rewrite Nat2N.inj_add, N.pow_add_r. ring. }
  assert (forall a (rs' : list N), pos a -> 0 < magnitude a < magnitude n -> exists rs'', obind (me_mod_n a m n) (fun b => if (mp_eq b (num 1) || mp_eq b n_1)%bool then Done (Some (true, rs')) else obind (squarings sn n n_1 b) (fun v => Done (Some (v, rs')))) = Done (Some (true, rs''))) as Main.
  { intros a rs' Pa La. exists rs'. destruct (me_exact a m n Pa (proj1 Pm) Pn Sn ltac:(lia)) as (b & Eb & Pb & Vb). rewrite Eb. cbn [obind]. rewrite (eq_num b 1 Pb), (eq_pos b n_1 Pb P1), M1 by reflexivity. destruct (N.eqb_spec (magnitude b) 1) as [Z1|Z1]; [reflexivity|]. destruct (N.eqb_spec (magnitude b) (magnitude n - 1)) as [Z2|Z2]; [reflexivity|]. cbn [orb].
    rewrite squarings_ok by (try assumption; lia). cbn [obind]. rewrite (sq_prime _ P G k sn); [reflexivity| |exact Z1|exact Z2| |exact K].
    - rewrite Vb. apply N.mod_lt. lia.
    - rewrite Vb, pow_mod_l by lia. rewrite <- N.pow_mul_r, (N.mul_comm (magnitude m)), <- Mk, M1. apply flt_N; assumption. }
  destruct (N.eqb_spec (magnitude p) 1) as [Z|Z]; cbn [obind].
  - right. apply Main; [exact Pp|lia].
  - destruct (random_base_ok fuel p rs Pp Sp ltac:(lia) Hb) as [E4|(a & rs' & E4 & Pa & La & Hb')]; rewrite E4; cbn [obind]; [left; reflexivity|]. right. apply Main; [exact Pa|lia].
Qed.
Lemma is_prime_prime : forall fuel n rs, pos n -> size n = 1%nat -> primeN (magnitude n) -> 2 < magnitude n -> ~ N.divide (2 ^ 16) (magnitude n - 1) -> bytes rs ->
  is_prime fuel n rs = Done None \/ exists rs', is_prime fuel n rs = Done (Some (true, rs')).
Proof.
  intros fuel n rs Pn Sn P G D Hb. unfold is_prime. rewrite fermat_prime by assumption. assert (magnitude n =? 2 = false) as -> by (apply N.eqb_neq; lia). destruct (Nat.ltb (length rs) 7); [left; reflexivity|]. cbn [obind]. apply miller_rabin_prime; try assumption. apply CipherLib.bytes_skipn. exact Hb.
Qed.
(* ---- a prime the Miller-Rabin test rejects *)
Lemma prime_by_trial : forall p b : Z, (1 < p)%Z -> (0 < b)%Z -> (p < (b + 1) * (b + 1))%Z -> forallb (fun d => negb (p mod (Z.of_nat d) =? 0)%Z) (seq 2 (Z.to_nat b - 1)) = true -> (b < p)%Z -> prime p.
Proof.
  intros p b P1 Hb L S Hp. assert (forall d, (1 < d <= b)%Z -> ~ (d | p)%Z) as T.
  { intros d Hd D. rewrite forallb_forall in S. specialize (S (Z.to_nat d)). rewrite in_seq in S. specialize (S ltac:(lia)). rewrite Z2Nat.id in S by lia. apply Z.mod_divide in D; [|lia]. rewrite D in S. discriminate. }
  apply prime_alt. split; [exact P1|]. intros n Hn [k K]. destruct (Z_le_gt_dec n b) as [H|H]; [apply (T n); [lia|exists k; exact K]|]. apply (T k); [nia|exists n; lia].
Qed.
Lemma prime_65537 : primeN 65537.
Proof. unfold primeN. apply (prime_by_trial _ 256); try lia. vm_compute. reflexivity. Qed.
Lemma div_2p_16 : forall n_1 fuel pn d, pos n_1 -> pos d -> magnitude n_1 = 2 ^ N.of_nat pn * magnitude d -> magnitude n_1 <> 0 -> (N.to_nat (magnitude d) <= fuel)%nat -> exists k m, two_power fuel n_1 pn d = Done (Some (k, m)) /\ pos m /\ magnitude n_1 = 2 ^ N.of_nat k * magnitude m /\ N.odd (magnitude m) = true.
Proof. intros n_1 fuel pn d P1 Pd M N0 F. destruct (two_power_ok fuel n_1 pn d P1 N0 Pd M) as [[_ L]|H]; [lia|exact H]. Qed.
Lemma mr_65537 : forall fuel rs, (N.to_nat 32768 <= fuel)%nat -> bytes rs -> miller_rabin fuel (num 65537) 14 (3 :: rs) = Done (Some (false, rs)).
Proof.
  intros fuel rs F Hb. assert (pos (num 65537)) as Pn by (apply pos_num; reflexivity). assert (size (num 65537) = 1%nat) as Sn by reflexivity. assert (magnitude (num 65537) = 65537) as Mn by apply mag_num. set (n := num 65537) in *. clearbody n. unfold miller_rabin. rewrite even_ok by apply (proj1 Pn). rewrite Mn. cbn [N.even]. rewrite (eq_num n 2 Pn), Mn by reflexivity. change (65537 =? 2) with false. cbv iota.
  destruct (sub1 n Pn Sn ltac:(rewrite Mn; discriminate)) as (n_1 & E1 & P1 & S1 & M1). rewrite E1. cbn [obind]. rewrite Mn in M1. change (65537 - 1) with 65536 in M1.
  destruct (div_2p_ok n_1 1 P1) as (d & r & E & Pd & Pr & Md & Mr). rewrite E. cbn [obind]. rewrite M1 in Md. change (65536 / 2 ^ N.of_nat 1) with 32768 in Md.
  destruct (div_2p_16 n_1 fuel 1 d P1 Pd) as (k & m & E2 & Pm & Mk & Om); [rewrite M1, Md; reflexivity|rewrite M1; discriminate|rewrite Md; exact F|]. rewrite E2. cbn [obind].
  assert (magnitude m = 1) as M. { rewrite M1 in Mk. assert (N.divide (magnitude m) (2 ^ 16)) as D by (exists (2 ^ N.of_nat k); exact Mk). assert (N.gcd (magnitude m) 2 = 1) as G. { apply N.odd_spec in Om. destruct Om as [h Hh]. rewrite Hh, N.gcd_comm. rewrite N.add_comm, (N.mul_comm 2 h), N.gcd_add_mult_diag_r. reflexivity. }
    assert (forall j, N.divide (magnitude m) (2 ^ N.of_nat j) -> magnitude m = 1) as I. { induction j as [|j IH]; intro D2; [apply N.divide_1_r; exact D2|]. rewrite Nat2N.inj_succ, N.pow_succ_r' in D2. apply IH. apply (N.gauss _ _ _ D2 G). } apply (I 16%nat). exact D. }
  destruct (sub1 n_1 P1 S1 ltac:(rewrite M1; discriminate)) as (p & E3 & Pp & Sp & Mp). rewrite E3. cbn [obind]. rewrite M1 in Mp. change (65536 - 1) with 65535 in Mp. rewrite (eq_num p 1 Pp), Mp by reflexivity. change (65535 =? 1) with false. cbv iota.
  assert (exists a, random_base fuel p (3 :: rs) = Done (Some (Some a, rs)) /\ pos a /\ magnitude a = 3) as (a & E4 & Pa & Ma).
  { destruct fuel as [|fuel]; [lia|]. cbn [random_base]. destruct (gen_random_ok p (3 :: rs) Pp ltac:(rewrite Mp; discriminate)) as (a & E5 & Pa & V & L); [constructor; [reflexivity|exact Hb]|rewrite Sp; cbn [length]; lia|]. rewrite E5, Sp. cbn [obind skipn]. specialize (L (num_size _ Pp Sp) (one_trim _ Pp Sp ltac:(rewrite Mp; discriminate))). rewrite Sp, Mp in V. rewrite Mp in L. cbn [firstn rev app digits_val] in V. rewrite N.mul_0_r, N.add_0_r, (N.mod_small (magnitude a)) in V by exact L. change (3 mod 65535) with 3 in V.
    rewrite mp_le_ok by (try apply (proj1 Pa); try (apply wf_num; rewrite B_eq; reflexivity); rewrite (proj2 Pa); reflexivity). rewrite mag_num, V. exists a. repeat split; try apply Pa. exact V. }
  rewrite E4. cbn [obind]. destruct (me_exact a m n Pa (proj1 Pm) Pn Sn ltac:(rewrite Mn; discriminate)) as (b & Eb & Pb & Vb). rewrite Ma, M, Mn in Vb. change (3 ^ 1 mod 65537) with 3 in Vb. rewrite Eb. cbn [obind]. rewrite (eq_num b 1 Pb), (eq_pos b n_1 Pb P1), M1, Vb by reflexivity. change ((3 =? 1) || (3 =? 65536))%bool with false. cbv iota.
  rewrite squarings_ok by (try assumption; rewrite ?M1, Mn; try discriminate; reflexivity). rewrite Mn, Vb. reflexivity.
Qed.
Lemma is_prime_65537 : forall fuel rs, (N.to_nat 32768 <= fuel)%nat -> bytes rs -> is_prime fuel (num 65537) (repeat 3 8 ++ rs) = Done (Some (false, rs)).
Proof.
  intros fuel rs F Hb. unfold is_prime. rewrite fermat_prime; [|apply pos_num; reflexivity|reflexivity|rewrite mag_num; exact prime_65537|apply Forall_app; split; [repeat constructor|exact Hb]]. rewrite mag_num. change (65537 =? 2) with false. cbn [repeat app length Nat.ltb Nat.leb skipn obind]. apply mr_65537; assumption.
Qed.
Lemma mr_two : forall fuel sn rs, miller_rabin fuel (num 2) sn rs = Done (Some (false, rs)).
Proof. reflexivity. Qed.
Lemma is_prime_two : forall fuel rs, is_prime fuel (num 2) rs = Done (Some (false, rs)).
Proof. reflexivity. Qed.
(* ---- forms used by the properties *)
Lemma random_covers : forall n v, well_formed n -> neg n = false -> length (data n) = 1%nat -> magnitude n <= 256 -> v < magnitude n ->
  exists byte, byte < 256 /\ forall rs, bytes rs -> exists r, gen_random n (byte :: rs) = Done (Some (Some r, rs)) /\ neg r = false /\ magnitude r = v.
Proof.
  intros n v Wn Nn Sn L H. exists v. split; [lia|]. intros rs Hb. assert (size n = 1%nat) as S1 by exact Sn. destruct (gen_random_ok n (v :: rs) (conj Wn Nn) ltac:(lia)) as (r & E & [Wr Nr] & V & B1); [constructor; [unfold byte; lia|exact Hb]|rewrite S1; cbn [length]; lia|]. exists r. rewrite E, S1. split; [reflexivity|]. split; [exact Nr|].
  rewrite S1 in V. cbn [firstn rev app digits_val] in V. rewrite N.mul_0_r, N.add_0_r, (N.mod_small v) in V by exact H. rewrite <- V. symmetry. apply N.mod_small. apply B1; [apply num_size; [split; assumption|exact S1]|apply one_trim; [split; assumption|exact S1|lia]].
Qed.
Lemma random_bounded : forall n rs, well_formed n -> neg n = false -> length (data n) = 1%nat -> magnitude n <> 0 -> bytes rs -> rs <> [] ->
  exists r, gen_random n rs = Done (Some (Some r, tl rs)) /\ well_formed r /\ neg r = false /\ magnitude r < magnitude n.
Proof.
  intros n rs Wn Nn Sn N0 Hb H. destruct rs as [|x rs]; [congruence|]. assert (size n = 1%nat) as S1 by exact Sn. destruct (gen_random_ok n (x :: rs) (conj Wn Nn) N0 Hb) as (r & E & [Wr Nr] & V & B1); [rewrite S1; cbn [length]; lia|]. exists r. rewrite E, S1. split; [reflexivity|]. split; [exact Wr|]. split; [exact Nr|].
  apply B1; [apply num_size; [split; assumption|exact S1]|apply one_trim; [split; assumption|exact S1|exact N0]].
Qed.
Lemma random_gap : exists n v, well_formed n /\ neg n = false /\ v < magnitude n /\ forall rs r rest, bytes rs -> gen_random n rs = Done (Some (Some r, rest)) -> magnitude r <> v.
Proof.
  assert (well_formed (num (2 ^ 63))) as W by (apply wf_num; rewrite B_eq; reflexivity). exists (num (2 ^ 63)), 256. split; [exact W|]. split; [reflexivity|]. rewrite mag_num. split; [reflexivity|]. intros rs r rest Hb E. set (n := num (2 ^ 63)) in *. assert (magnitude n = 2 ^ 63) as Mn by apply mag_num. assert (size n = 1%nat) as S1 by reflexivity. assert (pos n) as Pn by (split; [exact W|reflexivity]). clearbody n.
  destruct rs as [|x rs]; [unfold gen_random in E; rewrite S1 in E; discriminate|]. destruct (gen_random_ok n (x :: rs) Pn) as (r' & E' & Pr & V & L); [rewrite Mn; discriminate|exact Hb|rewrite S1; cbn [length]; lia|]. rewrite E in E'. injection E' as <- _.
  specialize (L (num_size n Pn S1) (one_trim n Pn S1 ltac:(rewrite Mn; discriminate))). rewrite S1 in V. cbn [firstn rev app digits_val] in V. rewrite N.mul_0_r, N.add_0_r, N.mod_small in V by exact L. assert (x < 256) as X by (inversion Hb; assumption). rewrite N.mod_small in V by (rewrite Mn; change (2 ^ 63) with 9223372036854775808; lia). lia.
Qed.
Lemma barrett_exact : forall x m, well_formed x -> well_formed m -> neg m = false -> magnitude m <> 0 ->
  exists r, barrett x None m = Done (Some r) /\ well_formed r /\ neg r = false /\ (value r mod value m = value x mod value m)%Z /\
    ((neg x = false /\ magnitude x < 2 * magnitude m) \/ (length (data m) = 1%nat) -> value r = (value x mod value m)%Z).
Proof.
  intros x m Wx Wm Nm M0. assert (value m = Z.of_N (magnitude m)) as Vm by (unfold value; rewrite Nm; reflexivity). rewrite Vm.
  assert (forall r, neg r = false -> value r = Z.of_N (magnitude r)) as Vr by (intros r E; unfold value; rewrite E; reflexivity).
  destruct (neg x) eqn:Nx; [|destruct (N.lt_ge_cases (magnitude x) (2 * magnitude m)) as [L|L]].
  - rewrite barrett_mod by (try assumption; try (split; assumption); left; exact Nx). destruct (mp_mod_ok x m Wx (conj Wm Nm) M0) as (r & E & [Wr Nr] & V & L). exists r. split; [exact E|]. split; [exact Wr|]. split; [exact Nr|]. rewrite (Vr r Nr). split; [exact V|]. intros [[C _]|S1]; [discriminate|]. rewrite <- V. symmetry. apply Z.mod_small. specialize (L (num_size m (conj Wm Nm) S1) (one_trim m (conj Wm Nm) S1 M0)). lia.
  - destruct (barrett_ok x m (conj Wx Nx) (conj Wm Nm) M0 L) as (r & E & [Wr Nr] & V). exists r. split; [exact E|]. split; [exact Wr|]. split; [exact Nr|]. rewrite (Vr r Nr), (Vr x Nx), V, N2Z.inj_mod. split; [apply Z.mod_mod; lia|reflexivity].
  - rewrite barrett_mod by (try assumption; try (split; assumption); right; exact L). destruct (mp_mod_ok x m Wx (conj Wm Nm) M0) as (r & E & [Wr Nr] & V & L2). exists r. split; [exact E|]. split; [exact Wr|]. split; [exact Nr|]. rewrite (Vr r Nr). split; [exact V|]. intros [[_ C]|S1]; [lia|]. rewrite <- V. symmetry. apply Z.mod_small. specialize (L2 (num_size m (conj Wm Nm) S1) (one_trim m (conj Wm Nm) S1 M0)). lia.
Qed.
Lemma montgomery_exact : forall x y, well_formed x -> well_formed y -> neg x = false -> neg y = false -> N.odd (magnitude y) = true -> length (data y) = 1%nat ->
  exists r, montgomery x y = Done (Some r) /\ well_formed r /\ neg r = false /\ magnitude r = magnitude x mod magnitude y.
Proof.
  intros x y Wx Wy Nx Ny O S1. assert (magnitude y <> 0) by (intro Z; rewrite Z in O; discriminate). destruct (montgomery_ok x y (conj Wx Nx) (conj Wy Ny) O (num_size y (conj Wy Ny) S1) (one_trim y (conj Wy Ny) S1 H)) as (r & E & [Wr Nr] & V). exists r. repeat (split; [assumption|]). exact V.
Qed.
