(* C75, C76, C98, C99: elliptic curves. "stands m P": the pair of multiprecision values m is the point P of EcSpec, reduced; "small_curve",
   "domain": EcMeaning; "multiple", "times", "sum", "associative": EcSpec. A fuel above three times p is enough for every inversion. *)
From Verif Require Import Words EncSpec TaskModel MpModel MpModel2 MpSpec PemModel PemSpec DlModel EcModel EcSpec EcMeaning MpProofs MpProofs2 MpProofs3 MpProofs4 MpProofs5 MpProofs6 NumTheory PemProofs PkLib DlProofs EcProofs EcProofs2 DlProps.
From Coq Require Import Znumtheory.
Open Scope N_scope.

(* C76. Adding, doubling and multiplying never fail on points of the curve, and give the sum, the double, and a point made of exactly
   d copies of P by additions (missing: p of more than one 64-bit digit, where the reduction may leave a value that is not reduced, C96;
   curves with b = 0, see ec_zero_b_refuted). *)
Theorem ec_add_partial : forall c fuel m n P Q, small_curve c -> (N.to_nat (3 * magnitude (cp c)) + 1 <= fuel)%nat -> stands m P -> stands n Q -> is_on c P -> is_on c Q ->
  exists r R, ec_add fuel m n c = Done (Some r) /\ stands r R /\ is_on c R /\ sum (value (cp c)) (value (ca c)) P Q R.
Proof. intros c fuel m n P Q S F. exact (add_ok c S fuel F m n P Q). Qed.
Theorem ec_dbl_partial : forall c fuel m P, small_curve c -> (N.to_nat (3 * magnitude (cp c)) + 1 <= fuel)%nat -> stands m P -> is_on c P ->
  exists r R, ec_dbl fuel m c = Done (Some r) /\ stands r R /\ is_on c R /\ sum (value (cp c)) (value (ca c)) P P R.
Proof. intros c fuel m P S F. exact (dbl_ok c S fuel F m P). Qed.
Theorem ec_mul_partial : forall c fuel m P d, small_curve c -> (N.to_nat (3 * magnitude (cp c)) + 1 <= fuel)%nat -> stands m P -> is_on c P -> number d ->
  exists r R, ec_mul fuel m d c = Done (Some r) /\ stands r R /\ is_on c R /\ multiple (value (cp c)) (value (ca c)) P (magnitude d) R.
Proof. intros c fuel m P d S F St On [W N]. exact (mul_ok c S fuel F m P d St On W N). Qed.
(* If the sum is associative it is P added d times. *)
Theorem ec_mul_repeated_partial : forall c fuel m P d, small_curve c -> associative (value (cp c)) (value (ca c)) (value (cb c)) -> (N.to_nat (3 * magnitude (cp c)) + 1 <= fuel)%nat -> stands m P -> is_on c P -> number d ->
  exists r R, ec_mul fuel m d c = Done (Some r) /\ stands r R /\ is_on c R /\ times (value (cp c)) (value (ca c)) P (N.to_nat (magnitude d)) R.
Proof.
  intros c fuel m P d S A F St On Hd. destruct (ec_mul_partial c fuel m P d S F St On Hd) as (r & R & E & St' & On' & M). exists r, R. split; [exact E|]. split; [exact St'|]. split; [exact On'|]. exact (multiple_times _ _ _ (Prm c S) (P2 c S) A P _ R On M).
Qed.
(* the specification determines the results *)
Theorem ec_results_unique : forall c P Q R S, small_curve c -> is_on c P -> is_on c Q -> sum (value (cp c)) (value (ca c)) P Q R -> sum (value (cp c)) (value (ca c)) P Q S -> R = S.
Proof. intros c P Q R S Sc HP HQ H1 H2. exact (sum_unique _ _ _ (Prm c Sc) (P2 c Sc) P Q R S HP HQ H1 H2). Qed.
(* y^2 = x^3 + x modulo 5: (0, 0) is on the curve, but (0, 0) + (2, 0) gives (2, 0), as if it were the point at infinity *)
Theorem ec_zero_b_refuted : let c := mkCurve (num 1) (num 0) (num 5) in on_curve 5 1 0 (Aff 0 0) /\ on_curve 5 1 0 (Aff 2 0) /\
  (exists r, ec_add 20 (mkPt (num 0) (num 0)) (mkPt (num 2) (num 0)) c = Done (Some r) /\ stands r (Aff 2 0)) /\ sum 5 1 (Aff 0 0) (Aff 2 0) (Aff 3 0).
Proof.
  cbv zeta. split; [cbn; lia|]. split; [cbn; lia|]. split; [|apply (sum_chord 5 1 0); vm_compute; congruence || reflexivity]. eexists. split; [vm_compute; reflexivity|]. apply stands_mk; [apply (num_pos 2); reflexivity|apply (num_pos 0); reflexivity|]. split; reflexivity.
Qed.
(* Doubling does not reduce its point: (2, 5), which is (2, 0) modulo 5, doubles to something that is not the point at infinity. *)
Theorem ec_dbl_unreduced_refuted : let c := mkCurve (num 1) (num 0) (num 5) in exists r, ec_dbl 20 (mkPt (num 2) (num 5)) c = Done (Some r) /\ ~ stands r Inf.
Proof. cbv zeta. eexists. split; [vm_compute; reflexivity|]. intros (_ & _ & _ & _ & X & _). vm_compute in X. discriminate. Qed.

(* C98. What is signed with a generated key pair verifies, and the message comes out, if the number of the hash is not 0 and s is not 0
   (missing: p and q above 2^64, as in C76; the order q times the point must be the point at infinity and the sum associative; s = 0 is
   never retried). hash: any function to bytes, hash_size the size it is announced with. *)
Theorem ecdsa_signature_verifies_partial : forall fuel hash hash_size c G q g bits rs r1 pub r2 priv rs', domain c G q g -> (N.to_nat (3 * magnitude (cp c)) + 1 <= fuel)%nat -> (2 * N.to_nat (magnitude q) <= fuel)%nat -> bits <> 0 -> bytes rs -> 8 <= hash_size ->
  ecdsa_key_pair fuel c G q bits rs = Done (Some ((r1, Some pub), (r2, Some priv), rs')) -> fits pub -> fits priv ->
  r1 = Success /\ r2 = Success /\
  forall x rs2, octets x -> x <> [] -> bytes (hash x) -> be_val (hash x) <> 0 -> bytes rs2 ->
  ecdsa_sign fuel hash hash_size priv x rs2 <> UB /\
  forall sg rest, ecdsa_sign fuel hash hash_size priv x rs2 = Done (Some (Success, Some sg, rest)) -> fits sg ->
  exists s, pem_get_mp ecdsa_s (Some sg) = Done (Some s) /\ (magnitude s <> 0 -> ecdsa_verify fuel hash hash_size pub sg = Done (Some (Success, Some x, []))).
Proof.
  intros fuel hash hsz c G q g bits rs r1 pub r2 priv rs' D F1 F2 B0 Hb Hsz E Fp Fq. destruct (EcProofs2.keys_ok c G q g D fuel F1 bits rs r1 pub r2 priv rs' B0 Hb E Fp Fq) as (S1 & S2 & _ & B & d & K). split; [exact S1|]. split; [exact S2|]. intros x rs2 O N0 Hh H0 Hr.
  destruct (EcProofs2.sign_ok c G q g D fuel F1 F2 hash hsz B d pub priv x rs2 K O N0 Hh H0 Hsz Hr) as [X|[(o & rest & X)|(sg & rest & X & Y)]]; rewrite X; (split; [discriminate|]); intros sg' rest' Z F; try discriminate. injection Z as <- <-. destruct (Y F) as (r & s & k & R & SG & SR & OR & TR & Ps & Lk & Ls & V). exists s. split; [apply SG|]. intro S0.
  apply (EcProofs2.verify_ok c G q g D fuel F1 F2 hash hsz B d pub priv x r R s k sg K SG N0 Hh); try assumption; [intro Z; rewrite Z in H0; apply H0; reflexivity|clear - S0 Ls; lia].
Qed.
(* A signature with 0 < s < q is accepted exactly when r is the x of u1 G + u2 B (FIPS 186-4, section 6.4 without the reduction of x
   modulo q, which the code does not do; missing: as above, and r and s out of range). w is the inverse of s; ec_results_unique: there is only one such T. *)
Theorem ecdsa_verify_exact_partial : forall fuel hash hash_size c G q g B RB r s w key x sg, domain c G q g -> (N.to_nat (3 * magnitude (cp c)) + 1 <= fuel)%nat -> (2 * N.to_nat (magnitude q) <= fuel)%nat -> 8 <= hash_size ->
  pem_get_mp ecdsa_p (Some key) = Done (Some (cp c)) -> pem_get_mp ecdsa_a (Some key) = Done (Some (ca c)) -> pem_get_mp ecdsa_b (Some key) = Done (Some (cb c)) -> pem_get_mp ecdsa_q (Some key) = Done (Some q) ->
  pem_get_mp ecdsa_ax (Some key) = Done (Some (px G)) -> pem_get_mp ecdsa_ay (Some key) = Done (Some (py G)) -> pem_get_mp ecdsa_bx (Some key) = Done (Some (px B)) -> pem_get_mp ecdsa_by (Some key) = Done (Some (py B)) ->
  pem_get ecdsa_x (Some sg) = Done (Some x) -> pem_get_mp ecdsa_r (Some sg) = Done (Some r) -> pem_get_mp ecdsa_s (Some sg) = Done (Some s) ->
  stands B RB -> on_curve (value (cp c)) (value (ca c)) (value (cb c)) RB -> x <> [] -> bytes (hash x) -> hash x <> [] -> 0 < magnitude s < magnitude q -> w * magnitude s mod magnitude q = 1 ->
  let u1 := w * be_val (hash x) mod magnitude q in let u2 := w * magnitude r mod magnitude q in
  exists TA TB T, times (value (cp c)) (value (ca c)) g (N.to_nat u1) TA /\ times (value (cp c)) (value (ca c)) RB (N.to_nat u2) TB /\ sum (value (cp c)) (value (ca c)) TA TB T /\
  let good := match T with Inf => magnitude r = 0 | Aff X _ => X = Z.of_N (magnitude r) end in
  (good -> ecdsa_verify fuel hash hash_size key sg = Done (Some (Success, Some x, []))) /\ (~ good -> ecdsa_verify fuel hash hash_size key sg = Done (Some (InvalidSignature, None, []))).
Proof.
  intros fuel hash hsz c G q g B RB r s w key x sg D F1 F2 Hsz K1 K2 K3 K4 K5 K6 K7 K8 S1 S2 S3 SB OB N0 Hh H0 Ls W. cbv zeta.
  destruct (EcProofs2.verdict c G q g D fuel F1 F2 hash hsz B RB key x r s sg w) as (TA & TB & T & MA & MB & Sm & V); try assumption; [|repeat split; assumption|].
  - intros h v I. unfold common in I. cbn [app In] in I. repeat (destruct I as [I|I]; [injection I as <- <-; assumption|]). destruct I.
  - exists TA, TB, T. split; [exact MA|]. split; [exact MB|]. split; [exact Sm|]. rewrite V. split; intro C.
    + assert (EcProofs2.x_of T =? Z.of_N (magnitude r) = true)%Z as ->; [apply Z.eqb_eq; destruct T; cbn [EcProofs2.x_of]; [rewrite C; reflexivity|exact C]|reflexivity].
    + assert (EcProofs2.x_of T =? Z.of_N (magnitude r) = false)%Z as ->; [apply Z.eqb_neq; intro X; apply C; destruct T; cbn [EcProofs2.x_of] in X; [clear - X; lia|exact X]|reflexivity].
Qed.
(* the private number is between 1 and q - 1 and the public point is that multiple of g *)
Theorem ecdsa_key_partial : forall fuel c G q g bits rs r1 pub r2 priv rs', domain c G q g -> (N.to_nat (3 * magnitude (cp c)) + 1 <= fuel)%nat -> bits <> 0 -> bytes rs ->
  ecdsa_key_pair fuel c G q bits rs = Done (Some ((r1, Some pub), (r2, Some priv), rs')) -> fits pub -> fits priv ->
  exists d x y B, pem_get_mp ecdsa_d (Some priv) = Done (Some d) /\ 1 <= magnitude d < magnitude q /\ pem_get_mp ecdsa_bx (Some pub) = Done (Some x) /\ pem_get_mp ecdsa_by (Some pub) = Done (Some y) /\ stands (mkPt x y) B /\ times (value (cp c)) (value (ca c)) g (N.to_nat (magnitude d)) B.
Proof.
  intros fuel c G q g bits rs r1 pub r2 priv rs' D F1 B0 Hb E Fp Fq. destruct (EcProofs2.keys_ok c G q g D fuel F1 bits rs r1 pub r2 priv rs' B0 Hb E Fp Fq) as (S1 & S2 & _ & B & d & [K1 K2 _ Ld (R & SB & _ & TB)]). exists d, (px B), (py B), R. split; [apply K2; left; reflexivity|]. split; [exact Ld|]. split; [apply K1; unfold common; cbn [app]; inlist|]. split; [apply K1; unfold common; cbn [app]; inlist|]. split; [destruct B; exact SB|exact TB].
Qed.
(* C75. Anyone can sign: r = s = 0 is accepted for every message, under every key that loads and has an odd q, of every size. *)
Theorem ecdsa_forgery_refuted : forall fuel hash hash_size c A B q key x sg,
  pem_get_mp ecdsa_p (Some key) = Done (Some (cp c)) -> pem_get_mp ecdsa_a (Some key) = Done (Some (ca c)) -> pem_get_mp ecdsa_b (Some key) = Done (Some (cb c)) -> pem_get_mp ecdsa_q (Some key) = Done (Some q) ->
  pem_get_mp ecdsa_ax (Some key) = Done (Some (px A)) -> pem_get_mp ecdsa_ay (Some key) = Done (Some (py A)) -> pem_get_mp ecdsa_bx (Some key) = Done (Some (px B)) -> pem_get_mp ecdsa_by (Some key) = Done (Some (py B)) ->
  magnitude (cp c) <> 0 -> N.of_nat (length (data (cp c))) * 8 <= hash_size -> 1 < magnitude q -> N.odd (magnitude q) = true -> (N.to_nat (magnitude q) < fuel)%nat ->
  octets x -> x <> [] -> bytes (hash x) -> hash x <> [] -> put_mps (snd (pem_put None ecdsa_x x)) [(ecdsa_r, num 0); (ecdsa_s, num 0)] = (Success, Some sg) -> fits sg ->
  ecdsa_verify fuel hash hash_size key sg = Done (Some (Success, Some x, [])).
Proof.
  intros fuel hash hsz c A B q key x sg K1 K2 K3 K4 K5 K6 K7 K8 P0 Hsz Q1 Oq Fu O N0 Hh H0 E F. assert (pos (num 0)) as R by (apply pos_num; reflexivity). destruct (pem_put None ecdsa_x x) as [r0 o] eqn:E0. destruct (PkLib.rel_put None empty_map ecdsa_x x PemProofs.rel_empty ltac:(RsaProofs.hdr) eq_refl O N0) as (p1 & E1 & _). rewrite E0 in E1. injection E1 as -> ->. cbn [snd] in E.
  destruct (ec_signature_ok x (num 0) (num 0) p1 Success sg O N0 R R E0 E F) as [_ SG]. apply (ec_forgery fuel hash hsz c A B q key x (num 0) (num 0) sg); try assumption; try apply mag_num. intros h v I. unfold common in I. cbn [app In] in I. repeat (destruct I as [I|I]; [injection I as <- <-; assumption|]). destruct I.
Qed.

(* C99. The sender's first call, the receiver's call on its message and the sender's second call on the answer: all succeed, and both
   sides hold the x of the same point, the a b-fold of g (missing: p and q above 2^64, as in C76). *)
Theorem ecdh_agreement_partial : forall fuel c G q g bits rsA rsB r1 a msg rsA' r2 kB ans rsB', domain c G q g -> (N.to_nat (3 * magnitude (cp c)) + 1 <= fuel)%nat -> bits <> 0 -> bits < 2 ^ 31 -> bytes rsA -> bytes rsB ->
  ecdh_start fuel c G q bits rsA = Done (Some (r1, a, Some msg, rsA')) -> fits msg ->
  ecdh_answer fuel msg rsB = Done (Some (r2, kB, Some ans, rsB')) -> fits ans ->
  r1 = Success /\ r2 = Success /\ 2 <= magnitude a < magnitude q /\
  exists kA k b S K, ecdh_finish fuel c a ans = Done (Some (Success, Some kA)) /\ kB = Some k /\ magnitude kA = magnitude k /\
    2 <= b < magnitude q /\ stands K S /\ k = px K /\ times (value (cp c)) (value (ca c)) g (N.to_nat (b * magnitude a)) S.
Proof.
  intros fuel c G q g bits rsA rsB r1 a msg rsA' r2 kB ans rsB' D F B0 B1 HA HB EA FA EB FB. destruct (start_ok c G q g D fuel F bits rsA B0 B1 HA) as [X|(r & k & o & rs' & X & _ & Pk & Lk & Y)]; rewrite X in EA; [discriminate|]. injection EA as -> -> -> ->. destruct (Y msg eq_refl FA) as (-> & H1 & K & R & H2 & SK & OK & TK). split; [reflexivity|].
  destruct (answer_ok c G q g D fuel F bits msg K R _ rsB B0 B1 HB H1 H2 SK OK TK) as [X2|(k2 & x2 & y2 & rs2 & o2 & r & X2 & _ & W & Y2)]; rewrite X2 in EB; [discriminate|]. injection EB as -> -> -> ->. destruct (Y2 ans eq_refl FB) as (-> & K2 & R2 & S & G1 & G2 & SK2 & OK2 & TK2 & (T & ST & ->) & TS & L1 & L2). split; [destruct W as [W|W]; [exact W|discriminate]|]. split; [exact Lk|].
  destruct (finish_ok c G q g D fuel F a ans K2 R2 k2 Pk G1 G2 SK2 OK2 TK2) as (T2 & S2 & X3 & ST2 & TS2). rewrite Nat.mul_comm in TS2. assert (S2 = S) as -> by exact (times_unique _ _ _ (Prm c (dm_c _ _ _ _ D)) (P2 c (dm_c _ _ _ _ D)) g _ S2 S (dm_on _ _ _ _ D) TS2 TS).
  exists (px T2), (px T), (N.of_nat k2), S, T. split; [exact X3|]. split; [reflexivity|]. split; [|split; [split; assumption|split; [exact ST|split; [reflexivity|]]]].
  - destruct (stands_pos _ _ ST) as [A1 _]. destruct (stands_pos _ _ ST2) as [A2 _]. apply N2Z.inj. rewrite <- (val_pos _ A1), <- (val_pos _ A2). destruct ST as (_ & _ & _ & _ & ST). destruct ST2 as (_ & _ & _ & _ & ST2). destruct S; destruct ST as [-> _]; destruct ST2 as [-> _]; reflexivity.
  - rewrite N2Nat.inj_mul, Nat2N.id. exact TS.
Qed.

(* y^2 = x^3 + 2x + 1 modulo 5, the point (0, 1) of order 7 *)
Definition pts : list point := [Inf; Aff 0 1; Aff 1 3; Aff 3 3; Aff 3 2; Aff 1 2; Aff 0 4].
Definition ptn (i : nat) : point := nth (Nat.modulo i 7) pts Inf.
Open Scope Z_scope.
Definition sumb (P Q R : point) (s : Z) : bool :=
  match P, Q with
  | Inf, _ => match Q, R with Inf, Inf => true | Aff x y, Aff u v => (x =? u) && (y =? v) | _, _ => false end
  | Aff x y, Inf => match R with Aff u v => (x =? u) && (y =? v) | _ => false end
  | Aff x y, Aff u v =>
      match R with
      | Inf => (x =? u) && ((y + v) mod 5 =? 0)
      | Aff x3 y3 => ((negb (x =? u) && ((s * (x - u)) mod 5 =? (y - v) mod 5)) || ((x =? u) && (y =? v) && negb (y =? 0) && ((s * (2 * y)) mod 5 =? (3 * x * x + 2) mod 5)))
          && (x3 =? (s * s - x - u) mod 5) && (y3 =? (s * (x - x3) - y) mod 5)
      end
  end%bool.
Lemma sumb_sound : forall P Q R s, sumb P Q R s = true -> sum 5 2 P Q R.
Proof.
  intros P Q R s H. destruct P as [|x y]; [|destruct Q as [|u v]].
  - destruct Q as [|u v]; destruct R as [|w z]; try discriminate; [constructor|]. cbn [sumb] in H. apply andb_prop in H. destruct H as [H1 H2]. apply Z.eqb_eq in H1. apply Z.eqb_eq in H2. destruct H1, H2. constructor.
  - destruct R as [|w z]; try discriminate. cbn [sumb] in H. apply andb_prop in H. destruct H as [H1 H2]. apply Z.eqb_eq in H1. apply Z.eqb_eq in H2. destruct H1, H2. constructor.
  - destruct R as [|w z]; cbn [sumb] in H.
    + apply andb_prop in H. destruct H as [H1 H2]. apply Z.eqb_eq in H1. apply Z.eqb_eq in H2. destruct H1. constructor. exact H2.
    + apply andb_prop in H. destruct H as [H H3]. apply andb_prop in H. destruct H as [H H2]. apply Z.eqb_eq in H3. apply Z.eqb_eq in H2. apply Bool.orb_prop in H. destruct H as [H|H].
      * apply andb_prop in H. destruct H as [H1 H4]. apply Bool.negb_true_iff, Z.eqb_neq in H1. apply Z.eqb_eq in H4. apply (sum_chord 5 2 s); assumption.
      * apply andb_prop in H. destruct H as [H H4]. apply andb_prop in H. destruct H as [H H5]. apply andb_prop in H. destruct H as [H6 H7]. apply Bool.negb_true_iff, Z.eqb_neq in H5. apply Z.eqb_eq in H4. apply Z.eqb_eq in H6. apply Z.eqb_eq in H7. destruct H6, H7. apply (sum_tangent 5 2 s); assumption.
Qed.
Lemma sums : forall i j, (i < 7)%nat -> (j < 7)%nat -> sum 5 2 (ptn i) (ptn j) (ptn (i + j)).
Proof.
  assert (forallb (fun i => forallb (fun j => existsb (sumb (ptn i) (ptn j) (ptn (i + j))) [0; 1; 2; 3; 4]) (seq 0 7)) (seq 0 7) = true) as C by (vm_compute; reflexivity).
  intros i j Hi Hj. rewrite forallb_forall in C. specialize (C i ltac:(apply in_seq; lia)). rewrite forallb_forall in C. specialize (C j ltac:(apply in_seq; lia)). apply existsb_exists in C. destruct C as (s & _ & C). exact (sumb_sound _ _ _ s C).
Qed.
Lemma prime_5 : prime 5. Proof. apply (prime_by_trial 5 3); reflexivity. Qed.
Lemma all_points : forall P, on_curve 5 2 1 P -> exists i, (i < 7)%nat /\ P = ptn i.
Proof.
  intros [|x y] H; [exists O; split; [lia|reflexivity]|]. destruct H as (Hx & Hy & H).
  assert (In x [0; 1; 2; 3; 4] /\ In y [0; 1; 2; 3; 4]) as [Ix Iy] by (cbn [In]; lia). cbn [In] in Ix, Iy.
  assert (In (Aff x y) (map ptn (seq 0 7))) as I. { destruct Ix as [<-|[<-|[<-|[<-|[<-|[]]]]]]; destruct Iy as [<-|[<-|[<-|[<-|[<-|[]]]]]]; vm_compute in H; try discriminate; vm_compute; tauto. }
  apply in_map_iff in I. destruct I as (i & E & Hi). apply in_seq in Hi. exists i. split; [lia|]. symmetry. exact E.
Qed.
Lemma points_on : forall i, on_curve 5 2 1 (ptn i).
Proof. intro i. unfold ptn. assert (i mod 7 < 7)%nat as H by (apply Nat.mod_upper_bound; discriminate). destruct (i mod 7)%nat as [|[|[|[|[|[|[|k]]]]]]]; [exact I|..|lia]; cbn [nth pts on_curve]; (split; [lia|]; split; [lia|]; reflexivity). Qed.
Lemma ptn_mod : forall i, ptn (Nat.modulo i 7) = ptn i. Proof. intro i. unfold ptn. rewrite Nat.mod_mod by discriminate. reflexivity. Qed.
Lemma sum_all : forall i j, sum 5 2 (ptn i) (ptn j) (ptn (i + j)).
Proof.
  intros i j. rewrite <- (ptn_mod i), <- (ptn_mod j). replace (ptn (i + j)) with (ptn (i mod 7 + j mod 7)). { apply sums; apply Nat.mod_upper_bound; discriminate. } unfold ptn. rewrite <- Nat.add_mod by discriminate. reflexivity.
Qed.
Lemma small_assoc : associative 5 2 1.
Proof.
  intros A B C AB BC R S HA HB HC H1 H2 H3 H4. destruct (all_points A HA) as (i & _ & ->). destruct (all_points B HB) as (j & _ & ->). destruct (all_points C HC) as (k & _ & ->). assert (5 <> 2) as P2 by lia.
  assert (AB = ptn (i + j)) as -> by exact (sum_unique 5 2 1 prime_5 P2 _ _ _ _ HA HB H1 (sum_all i j)). assert (BC = ptn (j + k)) as -> by exact (sum_unique 5 2 1 prime_5 P2 _ _ _ _ HB HC H2 (sum_all j k)).
  assert (R = ptn (i + j + k)) as -> by exact (sum_unique 5 2 1 prime_5 P2 _ _ _ _ (points_on _) HC H3 (sum_all _ k)). assert (S = ptn (i + (j + k))) as -> by exact (sum_unique 5 2 1 prime_5 P2 _ _ _ _ HA (points_on _) H4 (sum_all i _)). f_equal. lia.
Qed.
Lemma times_ptn : forall n, times 5 2 (ptn 1) n (ptn n).
Proof. induction n as [|n IH]; [constructor|]. apply (times_S _ _ _ n (ptn n)); [exact IH|]. replace (S n) with (n + 1)%nat by lia. apply sum_all. Qed.
Open Scope N_scope.
Definition curve5 : curve := mkCurve (num 2) (num 1) (num 5).
Definition base5 : pt := mkPt (num 0) (num 1).
Example ec_meets : domain curve5 base5 (num 7) (Aff 0 1).
Proof.
  assert (forall d, d < 10 -> number (num d)) as N by (intros d H; apply num_pos; exact H). assert (value (cp curve5) = 5%Z /\ value (ca curve5) = 2%Z /\ value (cb curve5) = 1%Z) as (V1 & V2 & V3) by (cbn [curve5 cp ca cb]; rewrite !num_val; repeat split; reflexivity).
  constructor; rewrite ?V1, ?V2, ?V3.
  - unfold small_curve. rewrite V1, V3. split; [apply (N 5); reflexivity|]. split; [reflexivity|]. split; [reflexivity|]. split; [exact prime_5|]. split; [discriminate|]. split; [apply pos_normal, (N 2); reflexivity|discriminate].
  - apply (N 2). reflexivity.
  - apply (N 1). reflexivity.
  - apply stands_mk; [apply (N 0); reflexivity|apply (N 1); reflexivity|split; apply num_val].
  - exact (points_on 1).
  - apply (N 7). reflexivity.
  - reflexivity.
  - rewrite mag_num. apply (prime_by_trial _ 3); reflexivity.
  - rewrite mag_num. discriminate.
  - rewrite mag_num. exact (times_ptn 7).
  - exact small_assoc.
Qed.
Lemma mul2 : ec_mul 20 base5 (num 2) curve5 = Done (Some (mkPt (num 1) (num 3))). Proof. vm_compute. reflexivity. Qed.
Lemma mul22 : ec_mul 20 (mkPt (num 1) (num 3)) (num 2) curve5 = Done (Some (mkPt (num 3) (num 2))). Proof. vm_compute. reflexivity. Qed.
Lemma rnd1 : u32_random 20 1 (num 7) 3 [0; 0; 0; 2] = Done (Some (num 2, [])). Proof. vm_compute. reflexivity. Qed.
Lemma rnd2 : u32_random 20 2 (num 7) 3 [0; 0; 0; 2] = Done (Some (num 2, [])). Proof. vm_compute. reflexivity. Qed.
Lemma rnd64 : u32_random 20 1 (num 7) 64 [0; 0; 0; 2] = Done (Some (num 2, [])). Proof. vm_compute. reflexivity. Qed.
(* d = 2 *)
Example ecdsa_meets : exists pub priv, ecdsa_key_pair 20 curve5 base5 (num 7) 3 [0; 0; 0; 2] = Done (Some ((Success, Some pub), (Success, Some priv), [])) /\ fits pub /\ fits priv.
Proof. eexists _, _. split; [unfold ecdsa_key_pair; rewrite rnd1; cbn [odo obind]; rewrite mul2; vm_compute; reflexivity|split; reflexivity]. Qed.
(* a = b = 2 *)
Definition msg5 : list N := Eval vm_compute in
  match put_mps (snd (pem_put None ecdh_bits (dec 3))) [(ecdh_p, num 5); (ecdh_a, num 2); (ecdh_b, num 1); (ecdh_gx, num 0); (ecdh_gy, num 1); (ecdh_q, num 7); (ecdh_kx, num 1); (ecdh_ky, num 3)] with (_, Some m) => m | _ => [] end.
Lemma fetched : forall A (bad : outcome (option A)) h buf k v, pem_get_mp h (Some buf) = Done (Some v) -> efetch bad h buf k = k v.
Proof. intros A bad h buf k v H. unfold efetch. rewrite H. reflexivity. Qed.
Lemma odone : forall A B (m : outcome (option A)) (k : A -> outcome (option B)) v, m = Done (Some v) -> odo m k = k v.
Proof. intros A B m k v ->. reflexivity. Qed.
Lemma answered : forall fuel inp rs p a b gx gy q kx ky t k K T o rs', inp <> [] ->
  pem_get_mp ecdh_p (Some inp) = Done (Some p) -> pem_get_mp ecdh_a (Some inp) = Done (Some a) -> pem_get_mp ecdh_b (Some inp) = Done (Some b) -> pem_get_mp ecdh_gx (Some inp) = Done (Some gx) -> pem_get_mp ecdh_gy (Some inp) = Done (Some gy) -> pem_get_mp ecdh_q (Some inp) = Done (Some q) ->
  pem_get_mp ecdh_kx (Some inp) = Done (Some kx) -> pem_get_mp ecdh_ky (Some inp) = Done (Some ky) -> pem_get ecdh_bits (Some inp) = Done (Some t) -> u32_random fuel 2 q (undec t) rs = Done (Some (k, rs')) -> ec_mul fuel (mkPt gx gy) k (mkCurve a b p) = Done (Some K) ->
  put_mps None [(ecdh_kx, px K); (ecdh_ky, py K)] = (Success, o) -> ec_mul fuel (mkPt (assign None kx) (assign None ky)) k (mkCurve a b p) = Done (Some T) -> ecdh_answer fuel inp rs = Done (Some (Success, Some (px T), o, rs')).
Proof.
  intros fuel inp rs p a b gx gy q kx ky t k K T o rs' N0 H1 H2 H3 H4 H5 H6 H7 H8 H9 R M1 P M2. unfold ecdh_answer. destruct inp as [|i0 inp]; [congruence|]. rewrite (fetched _ _ _ _ _ _ H1), (fetched _ _ _ _ _ _ H2), (fetched _ _ _ _ _ _ H3), (fetched _ _ _ _ _ _ H4), (fetched _ _ _ _ _ _ H5), (fetched _ _ _ _ _ _ H6), H9. cbn [obind]. rewrite (odone _ _ _ _ _ R), (odone _ _ _ _ _ M1), P, (fetched _ _ _ _ _ _ H7), (fetched _ _ _ _ _ _ H8), (odone _ _ _ _ _ M2). reflexivity.
Qed.
Example ecdh_meets : exists ans, ecdh_start 20 curve5 base5 (num 7) 3 [0; 0; 0; 2] = Done (Some (Success, num 2, Some msg5, [])) /\ fits msg5 /\ ecdh_answer 20 msg5 [0; 0; 0; 2] = Done (Some (Success, Some (num 3), Some ans, [])) /\ fits ans.
Proof.
  eexists. split; [unfold ecdh_start; rewrite (odone _ _ _ _ _ rnd2); cbv beta iota; rewrite mul2; vm_compute; reflexivity|]. split; [reflexivity|]. split.
  - apply (answered 20 msg5 [0; 0; 0; 2] (num 5) (num 2) (num 1) (num 0) (num 1) (num 7) (num 1) (num 3) (dec 3) (num 2) (mkPt (num 1) (num 3)) (mkPt (num 3) (num 2))); [discriminate|..|exact rnd2|exact mul2| |exact mul22]; vm_compute; reflexivity.
  - reflexivity.
Qed.

Print Assumptions ec_add_partial.
Print Assumptions ec_dbl_partial.
Print Assumptions ec_mul_partial.
Print Assumptions ec_mul_repeated_partial.
Print Assumptions ec_results_unique.
Print Assumptions ec_zero_b_refuted.
Print Assumptions ec_dbl_unreduced_refuted.
Print Assumptions ecdsa_signature_verifies_partial.
Print Assumptions ecdsa_verify_exact_partial.
Print Assumptions ecdsa_key_partial.
Print Assumptions ecdsa_forgery_refuted.
Print Assumptions ecdh_agreement_partial.
