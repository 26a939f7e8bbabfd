From Verif Require Import Words EncSpec TaskModel MpModel MpModel2 MpSpec MpProofs MpProofs2 MpProofs3 MpProofs4 MpProofs5 MpProofs6 NumTheory PemModel PemSpec PemProofs PkLib RsaProofs DlModel DlProofs DhModel.
Open Scope N_scope.

(* ---- concatenated buffers *)
Lemma assoc_app : forall a b h, assoc (a ++ b) h = match assoc a h with Some d => Some d | None => assoc b h end.
Proof. induction a as [|[k d] a IH]; intros b h; [reflexivity|]. cbn [app assoc]. destruct (eqb_header k h); [reflexivity|apply IH]. Qed.
Lemma render_app : forall a b, render (a ++ b) = render a ++ render b.
Proof. intros a b. unfold render. rewrite map_app, concat_app. reflexivity. Qed.
Lemma rel_concat : forall a b m1 m2, rel (Some a) m1 -> rel (Some b) m2 -> rel (Some (a ++ b)) (fun h => match m1 h with Some d => Some d | None => m2 h end).
Proof.
  intros a b m1 m2 (e1 & B1 & M1 & F1) (e2 & B2 & M2 & F2). exists (e1 ++ e2). destruct e1 as [|x1 e1]; [discriminate|]. destruct e2 as [|x2 e2]; [discriminate|]. cbn [buffer] in B1, B2. injection B1 as ->. injection B2 as ->. split; [cbn [buffer app]; f_equal; symmetry; apply (render_app (x1 :: e1) (x2 :: e2))|]. split; [|apply Forall_app; split; assumption]. intro h. rewrite assoc_app, M1, M2. reflexivity.
Qed.
(* ---- random secrets *)
Lemma land_digits : forall mask l, Forall (fun d => d < 2 ^ 64) l -> Forall (fun d => d < 2 ^ 64) (map (fun d => N.land d mask) l).
Proof. intros mask l H. induction H; cbn [map]; constructor; [apply land_lt; assumption|assumption]. Qed.
Lemma random_s_loop_ok : forall fuel p_2 n mask rs, pos p_2 -> (0 < n)%nat -> bytes rs ->
  random_s_loop fuel p_2 n mask rs = Done None \/ exists s rs', random_s_loop fuel p_2 n mask rs = Done (Some (s, rs')) /\ pos s /\ 2 <= magnitude s <= magnitude p_2 /\ bytes rs'.
Proof.
  induction fuel as [|fuel IH]; intros p_2 n mask rs Pp Hn Hb; cbn [random_s_loop]; [left; reflexivity|]. destruct (rand_digits n rs) as [[ds rs1]|] eqn:D; [|left; reflexivity]. destruct (rand_wf _ _ _ _ Hb D) as (L & F & B1). cbv zeta. set (x := mkMp false (map (fun d => N.land d mask) ds)).
  assert (pos x) as Px. { split; [|reflexivity]. split; cbn [data x]; [intro Q; apply map_eq_nil in Q; subst ds; cbn in L; lia|apply land_digits; exact F]. } clearbody x.
  assert (pos (num 2)) as P2 by (apply pos_num; reflexivity). rewrite mp_gt_ok, mp_lt_ok by (try apply Px; try apply Pp; try apply P2; rewrite ?(proj2 Px), ?(proj2 Pp); reflexivity). rewrite mag_num. destruct (N.ltb_spec (magnitude p_2) (magnitude x)) as [C|C]; [apply IH; assumption|]. destruct (N.ltb_spec (magnitude x) 2) as [C2|C2]; [apply IH; assumption|]. right. exists x, rs1. split; [reflexivity|]. split; [exact Px|]. split; [lia|exact B1].
Qed.
Lemma random_s_ok : forall fuel p bits rs, pos p -> 2 <= magnitude p -> bits <> 0 -> bytes rs ->
  random_s fuel p bits rs = Done None \/ exists s rs', random_s fuel p bits rs = Done (Some (s, rs')) /\ pos s /\ 2 <= magnitude s <= magnitude p - 2 /\ bytes rs'.
Proof.
  intros fuel p bits rs Pp P2 Hbits Hb. unfold random_s. rewrite (assign_pos p Pp). destruct (pos_sub p (num 2) Pp (pos_num 2 ltac:(reflexivity))) as (p_2 & E & Q2 & M); [rewrite mag_num; exact P2|]. rewrite mag_num in M. rewrite E. cbn [obind]. assert (bits =? 0 = false) as -> by (apply N.eqb_neq; exact Hbits). cbv zeta.
  rewrite <- M. apply random_s_loop_ok; [exact Q2| |exact Hb]. destruct (_ <? _); [apply wf_size; apply Pp|]. unfold new_digits. apply (Nat.lt_le_trans _ 1); [apply Nat.lt_0_1|apply Nat.le_max_l].
Qed.
Definition opt_pos (q : option mp) : Prop := match q with Some q => pos q /\ 2 <= magnitude q | None => True end.
Definition order (p : mp) (q : option mp) : mp := match q with Some q => q | None => p end.
Record public (p : mp) (q : option mp) (g t : mp) (buf : list N) : Prop := mkPublic {
  pb_p : pem_get_mp dh_p (Some buf) = Done (Some p); pb_q : pem_get_mp dh_q (Some buf) = Done q; pb_g : pem_get_mp dh_g (Some buf) = Done (Some g); pb_t : pem_get_mp dh_t (Some buf) = Done (Some t);
  pb_u : pem_get_mp dh_u (Some buf) = Done None }.
Lemma public_ok : forall p q g t r buf, pos p -> opt_pos q -> pos g -> pos t -> put_mps None ((dh_p, p) :: opt_q q ++ [(dh_g, g); (dh_t, t)]) = (r, Some buf) -> fits buf -> r = Success /\ public p q g t buf.
Proof.
  intros p [q|] g t r buf Pp Pq Pg Pt E F; cbn [opt_q app] in E.
  - destruct Pq as [Pq _]. destruct (puts_get [(dh_p, p); (dh_q, q); (dh_g, g); (dh_t, t)] r buf) as (S1 & G1 & A1); [putsok|exact E|exact F|]. split; [exact S1|]. constructor; try (apply G1; inlist). apply A1; [hdr|apply absent_ok; vm_compute; reflexivity].
  - destruct (puts_get [(dh_p, p); (dh_g, g); (dh_t, t)] r buf) as (S1 & G1 & A1); [putsok|exact E|exact F|]. split; [exact S1|]. constructor; try (apply G1; inlist); (apply A1; [hdr|apply absent_ok; vm_compute; reflexivity]).
Qed.
Lemma public_some : forall p q g t, pos p -> opt_pos q -> pos g -> pos t -> exists r buf, put_mps None ((dh_p, p) :: opt_q q ++ [(dh_g, g); (dh_t, t)]) = (r, Some buf).
Proof. intros p [q|] g t Pp Pq Pg Pt; apply puts_some; try discriminate; cbn [opt_q app]; [destruct Pq as [Pq _]|]; putsok. Qed.
(* ---- the standard exchange *)
Definition start (p : mp) (q : option mp) (g : mp) (bits : N) : xchg := with_bits (with_pqg xchg0 (Some p) q (Some g)) bits.
Lemma order_pos : forall p q, pos p -> 2 <= magnitude p -> opt_pos q -> pos (order p q) /\ 2 <= magnitude (order p q).
Proof. intros p [q|] Pp P2 Pq; [exact Pq|split; assumption]. Qed.
Lemma std_sender : forall fuel p q g bits rs, pos p -> 2 <= magnitude p -> opt_pos q -> pos g -> bits <> 0 -> bytes rs ->
  dh_std fuel (start p q g bits) rs = Done None \/ exists s t r buf rs', dh_std fuel (start p q g bits) rs = Done (Some (mkXchg (Some p) q (Some g) None (Some s) None bits None (Some buf) r, rs')) /\
    pos s /\ 2 <= magnitude s <= magnitude (order p q) - 2 /\ pos t /\ magnitude t mod magnitude p = magnitude g ^ magnitude s mod magnitude p /\ bytes rs' /\ (fits buf -> r = Success /\ public p q g t buf).
Proof.
  intros fuel p q g bits rs Pp P2 Pq Pg Hbits Hb. destruct (order_pos p q Pp P2 Pq) as [Po O2]. unfold dh_std, start. cbn [x_p x_g with_bits with_pqg xchg0]. unfold std_t. cbn [x_t x_in xchg0 with_bits with_pqg]. unfold std_tail. cbn [x_p x_g x_s x_q xchg0 with_bits with_pqg]. unfold xsecret. cbn [x_q x_bits with_bits with_pqg xchg0]. fold (order p q).
  destruct (random_s_ok fuel (order p q) bits rs Po O2 Hbits Hb) as [E|(s & rs1 & E & Ps & Ls & B1)]; rewrite E; cbn [obind]; [left; reflexivity|right]. unfold eval_t. destruct (me_mod_n_ok g s p Pg (proj1 Ps) Pp ltac:(clear - P2; lia)) as (t & Et & Pt & Vt & _). rewrite Et. cbn [obind].
  destruct (public_some p q g t Pp Pq Pg Pt) as (r & buf & Eb). cbn [x_q with_out with_s with_bits with_pqg xchg0]. rewrite Eb. exists s, t, r, buf, rs1. split; [reflexivity|]. split; [exact Ps|]. split; [exact Ls|]. split; [exact Pt|]. split; [exact Vt|]. split; [exact B1|]. intro F. apply (public_ok p q g t r buf); assumption.
Qed.
Lemma std_receiver : forall fuel p q g t buf bits rs, public p q g t buf -> pos p -> 2 <= magnitude p -> opt_pos q -> pos g -> pos t -> bits <> 0 -> bytes rs ->
  dh_std fuel (with_in (with_bits xchg0 bits) (Some buf)) rs = Done None \/ exists s u k out rs', dh_std fuel (with_in (with_bits xchg0 bits) (Some buf)) rs = Done (Some (mkXchg (Some p) q (Some g) None (Some s) (Some k) bits (Some buf) (Some out) Success, rs')) /\
    pos s /\ 2 <= magnitude s <= magnitude (order p q) - 2 /\ pos u /\ magnitude u mod magnitude p = magnitude g ^ magnitude s mod magnitude p /\ pos k /\ magnitude k mod magnitude p = magnitude t ^ magnitude s mod magnitude p /\ (small p -> magnitude k < magnitude p) /\ bytes rs' /\ (fits out -> pem_get_mp dh_t (Some out) = Done (Some u)).
Proof.
  intros fuel p q g t buf bits rs [K1 K2 K3 K4 _] Pp P2 Pq Pg Pt Hbits Hb. destruct (order_pos p q Pp P2 Pq) as [Po O2]. assert (magnitude p <> 0) as P0 by (clear - P2; lia).
  unfold dh_std. cbn [x_p x_g with_in with_bits xchg0]. unfold xfetch, xfetch_q. cbn [x_in x_q x_g with_in with_bits with_pqg xchg0]. rewrite K1, K2, K3. cbn [obind]. replace (match q with Some a => Some a | None => None end) with q by (destruct q; reflexivity). unfold std_t. cbn [x_t x_in with_in with_bits with_pqg with_t xchg0]. unfold xfetch. cbn [x_in with_in with_bits with_pqg with_t xchg0]. rewrite K4. cbn [obind].
  unfold std_tail. cbn [x_p x_g x_s x_t with_in with_bits with_pqg with_t xchg0]. unfold xsecret. cbn [x_q x_bits with_in with_bits with_pqg with_t xchg0]. fold (order p q). destruct (random_s_ok fuel (order p q) bits rs Po O2 Hbits Hb) as [E|(s & rs1 & E & Ps & Ls & B1)]; rewrite E; cbn [obind]; [left; reflexivity|right]. cbn [x_t with_out with_s with_in with_bits with_pqg with_t xchg0]. unfold eval_t.
  destruct (me_mod_n_ok t s p Pt (proj1 Ps) Pp P0) as (k & Ek & Pk & Vk & Lk). destruct (me_mod_n_ok g s p Pg (proj1 Ps) Pp P0) as (u & Eu & Pu & Vu & _). rewrite Ek, Eu. cbn [obind put_mps]. destruct (rel_put_mp None empty_map dh_t u rel_empty ltac:(hdr) eq_refl (proj1 Pu)) as (out & Eo & _). rewrite Eo. exists s, u, k, out, rs1. split; [reflexivity|]. split; [exact Ps|]. split; [exact Ls|]. split; [exact Pu|]. split; [exact Vu|]. split; [exact Pk|]. split; [exact Vk|]. split; [intros (_ & L & T); apply Lk; [rewrite B_eq; apply L|exact T]|]. split; [exact B1|]. intro F. apply (one_put dh_t u out ltac:(hdr) Pu Eo F).
Qed.
Lemma std_finish : forall fuel p q g s u bits o r buf rs, pos p -> 2 <= magnitude p -> pos s -> pos u -> pem_get_mp dh_t (Some buf) = Done (Some u) ->
  exists k, dh_std fuel (with_in (mkXchg (Some p) q (Some g) None (Some s) None bits None o r) (Some buf)) rs = Done (Some (mkXchg (Some p) q (Some g) (Some u) (Some s) (Some k) bits (Some buf) o Success, rs)) /\ pos k /\ magnitude k mod magnitude p = magnitude u ^ magnitude s mod magnitude p /\ (small p -> magnitude k < magnitude p).
Proof.
  intros fuel p q g s u bits o r buf rs Pp P2 Ps Pu K. assert (magnitude p <> 0) as P0 by (clear - P2; lia). unfold dh_std. cbn [with_in x_p x_g x_t x_in]. unfold std_t. cbn [with_in x_p x_g x_t x_in]. unfold xfetch. cbn [x_in with_in]. rewrite K. cbn [obind]. unfold std_tail. cbn [x_p x_g x_s x_t with_t with_in]. unfold eval_t. destruct (me_mod_n_ok u s p Pu (proj1 Ps) Pp P0) as (k & Ek & Pk & Vk & Lk). rewrite Ek. cbn [obind]. exists k. split; [reflexivity|]. split; [exact Pk|]. split; [exact Vk|]. intros (_ & L & T). apply Lk; [rewrite B_eq; apply L|exact T].
Qed.
Lemma agree_number : forall p g a b t u, p <> 0 -> t mod p = g ^ a mod p -> u mod p = g ^ b mod p -> t ^ b mod p = g ^ (a * b) mod p /\ u ^ a mod p = g ^ (a * b) mod p.
Proof.
  intros p g a b t u P T U. split; [rewrite <- pow_mod_l, T, pow_mod_l by exact P|rewrite <- pow_mod_l, U, pow_mod_l by exact P; rewrite (N.mul_comm a)]; rewrite <- N.pow_mul_r; reflexivity.
Qed.
(* ---- the modified exchange *)
Lemma key_pair_ok : forall fuel p q g bits rs, pos p -> 2 <= magnitude p -> opt_pos q -> pos g -> bits <> 0 -> bytes rs ->
  dh_key_pair fuel None None (start p q g bits) rs = Done None \/ exists pub priv x rs', dh_key_pair fuel None None (start p q g bits) rs = Done (Some (Some pub, priv, x, rs')) /\ bytes rs' /\
    (fits pub -> exists s t pr, priv = Some pr /\ pos s /\ pos t /\ 2 <= magnitude s <= magnitude (order p q) - 2 /\ magnitude t mod magnitude p = magnitude g ^ magnitude s mod magnitude p /\ public p q g t pub /\
      (fits pr -> x_res x = Success /\ rel (Some pr) (map_of [(dh_s, s); (dh_p, p)] empty_map))).
Proof.
  intros fuel p q g bits rs Pp P2 Pq Pg Hbits Hb. destruct (order_pos p q Pp P2 Pq) as [Po O2]. unfold dh_key_pair, start. cbn [x_p x_g x_q x_bits with_bits with_pqg xchg0]. fold (order p q). destruct (random_s_ok fuel (order p q) bits rs Po O2 Hbits Hb) as [E|(s & rs1 & E & Ps & Ls & B1)]; rewrite E; cbn [obind]; [left; reflexivity|right].
  unfold eval_t. destruct (me_mod_n_ok g s p Pg (proj1 Ps) Pp ltac:(clear - P2; lia)) as (t & Et & Pt & Vt & _). rewrite Et. cbn [obind]. destruct (public_some p q g t Pp Pq Pg Pt) as (r & buf & Eb). rewrite Eb. assert (puts [(dh_s, s); (dh_p, p)]) as PU by putsok. destruct (puts_some [(dh_s, s); (dh_p, p)] ltac:(discriminate) PU) as (r2 & pr & Ep). rewrite Ep.
  assert (fits buf -> r = Success /\ public p q g t buf) as PB by (intro F; apply (public_ok p q g t r buf); assumption).
  destruct r; try (eexists buf, _, _, rs1; split; [reflexivity|]; split; [exact B1|]; intro F; destruct (PB F) as [X _]; discriminate).
  eexists buf, _, _, rs1. split; [reflexivity|]. split; [exact B1|]. intro F. destruct (PB F) as [_ PB2]. exists s, t, pr. split; [reflexivity|]. split; [exact Ps|]. split; [exact Pt|]. split; [exact Ls|]. split; [exact Vt|]. split; [exact PB2|]. intro F2. cbn [x_res with_s with_t with_res].
  apply (puts_rel [(dh_s, s); (dh_p, p)] None empty_map r2 pr rel_empty); [|apply PU|exact Ep|exact F2]. destruct PU as [U _]. rewrite Forall_forall in *. intros e He. destruct (U e He) as [G1 G2]. split; [exact G1|]. split; [reflexivity|apply G2].
Qed.
Lemma mod_sender : forall fuel p q g t pub bits rs, public p q g t pub -> pos p -> 2 <= magnitude p -> opt_pos q -> pos g -> pos t -> bits <> 0 -> bytes rs ->
  dh_mod fuel (with_in (with_bits xchg0 bits) (Some pub)) rs = Done None \/ exists s u k out x rs', dh_mod fuel (with_in (with_bits xchg0 bits) (Some pub)) rs = Done (Some (x, rs')) /\
    x_res x = Success /\ x_k x = Some k /\ x_out x = Some out /\ pos s /\ 2 <= magnitude s <= magnitude (order p q) - 2 /\ pos u /\ magnitude u mod magnitude p = magnitude g ^ magnitude s mod magnitude p /\ pos k /\ magnitude k mod magnitude p = magnitude t ^ magnitude s mod magnitude p /\ (small p -> magnitude k < magnitude p) /\ (fits out -> rel (Some out) (insert empty_map dh_u (mp_image u))).
Proof.
  intros fuel p q g t pub bits rs [K1 K2 K3 K4 K5] Pp P2 Pq Pg Pt Hbits Hb. destruct (order_pos p q Pp P2 Pq) as [Po O2]. assert (magnitude p <> 0) as P0 by (clear - P2; lia).
  unfold dh_mod. cbn [x_in with_in with_bits xchg0]. rewrite K5. cbn [obind]. unfold xfetch, xfetch_q. cbn [x_in x_q x_g with_in with_bits with_pqg xchg0]. rewrite K1, K2, K3, K4. cbn [obind]. replace (match q with Some a => Some a | None => None end) with q by (destruct q; reflexivity). unfold xsecret. cbn [x_q x_bits with_in with_bits with_pqg with_t xchg0]. fold (order p q).
  destruct (random_s_ok fuel (order p q) bits rs Po O2 Hbits Hb) as [E|(s & rs1 & E & Ps & Ls & B1)]; rewrite E; cbn [obind]; [left; reflexivity|right]. unfold eval_t. destruct (me_mod_n_ok t s p Pt (proj1 Ps) Pp P0) as (k & Ek & Pk & Vk & Lk). destruct (me_mod_n_ok g s p Pg (proj1 Ps) Pp P0) as (u & Eu & Pu & Vu & _). rewrite Ek, Eu. cbn [obind]. cbn [x_out with_s with_t with_pqg with_in with_bits xchg0].
  destruct (rel_put_mp None empty_map dh_u u rel_empty ltac:(hdr) eq_refl (proj1 Pu)) as (out & Eo & R & _). rewrite Eo. eexists s, u, k, out, _, rs1. split; [reflexivity|]. cbn [x_res x_k x_out]. split; [reflexivity|]. split; [reflexivity|]. split; [reflexivity|]. split; [exact Ps|]. split; [exact Ls|]. split; [exact Pu|]. split; [exact Vu|]. split; [exact Pk|]. split; [exact Vk|]. split; [intros (_ & L & T); apply Lk; [rewrite B_eq; apply L|exact T]|exact R].
Qed.
Lemma mod_receiver : forall fuel p s u buf m bits rs, rel (Some buf) m -> m dh_u = Some (mp_image u) -> m dh_p = Some (mp_image p) -> m dh_s = Some (mp_image s) -> pos p -> 2 <= magnitude p -> pos s -> pos u ->
  exists k x, dh_mod fuel (with_in (with_bits xchg0 bits) (Some buf)) rs = Done (Some (x, rs)) /\ x_res x = Success /\ x_k x = Some k /\ pos k /\ magnitude k mod magnitude p = magnitude u ^ magnitude s mod magnitude p /\ (small p -> magnitude k < magnitude p).
Proof.
  intros fuel p s u buf m bits rs R M1 M2 M3 Pp P2 Ps Pu. assert (magnitude p <> 0) as P0 by (clear - P2; lia). unfold dh_mod. cbn [x_in with_in with_bits xchg0]. rewrite (get_mp_ok _ _ dh_u u R ltac:(hdr) M1 Pu). cbn [obind]. unfold xfetch. cbn [x_in with_in with_bits with_pqg xchg0]. rewrite (get_mp_ok _ _ dh_p p R ltac:(hdr) M2 Pp), (get_mp_ok _ _ dh_s s R ltac:(hdr) M3 Ps). cbn [obind]. unfold eval_t. destruct (me_mod_n_ok u s p Pu (proj1 Ps) Pp P0) as (k & Ek & Pk & Vk & Lk). rewrite Ek. cbn [obind].
  eexists k, _. split; [reflexivity|]. cbn [x_res x_k with_s with_k with_res with_pqg]. split; [reflexivity|]. split; [reflexivity|]. split; [exact Pk|]. split; [exact Vk|]. intros (_ & L & T). apply Lk; [rewrite B_eq; apply L|exact T].
Qed.
