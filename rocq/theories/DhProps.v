(* C71, C97: Diffie-Hellman. "magnitude" is the number a multiprecision value stands for (MpSpec); "number a": a is a value the library
   can hold, not negative; "one_digit a": it is below 2^64 without leading zero digits. "fits": shorter than 2^60 bytes. *)
From Verif Require Import Words EncSpec TaskModel MpModel MpModel2 MpSpec PemModel PemSpec DlModel DhModel MpProofs MpProofs2 MpProofs3 MpProofs4 MpProofs6 PemProofs PkLib DlProofs DhProofs DlProps DhSpec.
From Coq Require Import String.
Open Scope N_scope.

Definition order_ok (q : option mp) : Prop := match q with Some q => number q /\ 2 <= magnitude q | None => True end.
(* a context after kryptos_dh_init_xchg_ctx with p, g, possibly q, and the bits of the secret set by the user *)
Definition context (p : mp) (q : option mp) (g : mp) (bits : N) : xchg := with_bits (with_pqg xchg0 (Some p) q (Some g)) bits.
(* the same with the bits only, and what was received from the other side *)
Definition received (bits : N) (buf : option (list N)) : xchg := with_in (with_bits xchg0 bits) buf.
Definition short (o : option (list N)) : Prop := match o with Some l => fits l | None => False end.
(* the two secrets and the two keys *)
Definition agreed (p : mp) (q : option mp) (g kA kB : mp) (a b : N) : Prop :=
  let top := magnitude (match q with Some q => q | None => p end) - 2 in
  2 <= a <= top /\ 2 <= b <= top /\
  magnitude kA mod magnitude p = magnitude g ^ (a * b) mod magnitude p /\ magnitude kB mod magnitude p = magnitude g ^ (a * b) mod magnitude p /\
  (one_digit p -> magnitude kA = magnitude g ^ (a * b) mod magnitude p /\ magnitude kB = magnitude g ^ (a * b) mod magnitude p).
Lemma make_agreed : forall p q g kA kB a b t u, number p -> 2 <= magnitude p -> 2 <= a <= magnitude (order p q) - 2 -> 2 <= b <= magnitude (order p q) - 2 ->
  magnitude t mod magnitude p = magnitude g ^ a mod magnitude p -> magnitude u mod magnitude p = magnitude g ^ b mod magnitude p ->
  magnitude kB mod magnitude p = magnitude t ^ b mod magnitude p -> magnitude kA mod magnitude p = magnitude u ^ a mod magnitude p -> (small p -> magnitude kA < magnitude p) -> (small p -> magnitude kB < magnitude p) -> agreed p q g kA kB a b.
Proof.
  intros p q g kA kB a b t u Pp P2 La Lb T U KB KA LA LB. assert (magnitude p <> 0) as P0 by (clear - P2; lia). destruct (agree_number _ _ a b _ _ P0 T U) as [X Y]. split; [exact La|]. split; [exact Lb|]. rewrite KA, KB, X, Y. split; [reflexivity|]. split; [reflexivity|]. intro D. apply digit_small in D. specialize (LA D). specialize (LB D). rewrite <- X at 2. rewrite <- Y. rewrite <- KB, <- KA. rewrite !N.mod_small by assumption. split; reflexivity.
Qed.

(* C71, standard exchange. The sender's first call, the receiver's call on what it gave, the sender's second call on the answer: all
   succeed and both sides hold g^(ab) modulo p: congruent for every p, equal for p below 2^64 (missing: equality for longer p, where a
   division may leave a remainder that is not reduced, C61). *)
Theorem dh_standard_agreement_partial : forall fuel p q g bitsA bitsB rsA rsB rsC A rsA' B rsB', number p -> 2 <= magnitude p -> order_ok q -> number g -> bitsA <> 0 -> bitsB <> 0 -> bytes rsA -> bytes rsB ->
  dh_std fuel (context p q g bitsA) rsA = Done (Some (A, rsA')) -> short (x_out A) ->
  dh_std fuel (received bitsB (x_out A)) rsB = Done (Some (B, rsB')) -> short (x_out B) ->
  exists A2, dh_std fuel (with_in A (x_out B)) rsC = Done (Some (A2, rsC)) /\ x_res A = Success /\ x_res B = Success /\ x_res A2 = Success /\
  exists kA kB a b, x_k A2 = Some kA /\ x_k B = Some kB /\ x_s A = Some a /\ x_s B = Some b /\ agreed p q g kA kB (magnitude a) (magnitude b).
Proof.
  intros fuel p q g bitsA bitsB rsA rsB rsC A rsA' B rsB' Pp P2 Pq Pg HA HB BA BB EA FA EB FB.
  destruct (std_sender fuel p q g bitsA rsA Pp P2 Pq Pg HA BA) as [X|(a & t & r & buf & rs1 & X & Pa & La & Pt & Vt & _ & Pu1)]; unfold start in X; unfold context in EA; rewrite X in EA; [discriminate|]. injection EA as <- <-. cbn [x_out x_res x_s] in *. destruct (Pu1 FA) as [-> PB].
  destruct (std_receiver fuel p q g t buf bitsB rsB PB Pp P2 Pq Pg Pt HB BB) as [Y|(b & u & kB & out & rs2 & Y & Pb & Lb & Pu & Vu & PkB & VkB & LkB & _ & G)]; unfold received in EB; rewrite Y in EB; [discriminate|]. injection EB as <- <-. cbn [x_out x_res x_k x_s] in *.
  destruct (std_finish fuel p q g a u bitsA (Some buf) Success out rsC Pp P2 Pa Pu (G FB)) as (kA & Z & PkA & VkA & LkA). eexists. split; [exact Z|]. split; [reflexivity|]. split; [reflexivity|]. split; [reflexivity|]. exists kA, kB, a, b. split; [reflexivity|]. split; [reflexivity|]. split; [reflexivity|]. split; [reflexivity|].
  apply (make_agreed p q g kA kB _ _ t u); assumption.
Qed.
(* C71, modified exchange. Bob makes a key pair; Alice's call on the public key gives a key and an answer; Bob's call on the private key
   with the answer behind it, or before it, gives the same key. *)
Theorem dh_modified_agreement_partial : forall fuel p q g bitsA bitsB rsA rsB rsC pub priv x rsB' A rsA', number p -> 2 <= magnitude p -> order_ok q -> number g -> bitsA <> 0 -> bitsB <> 0 -> bytes rsA -> bytes rsB ->
  dh_key_pair fuel None None (context p q g bitsB) rsB = Done (Some (pub, Some priv, x, rsB')) -> short pub -> fits priv ->
  dh_mod fuel (received bitsA pub) rsA = Done (Some (A, rsA')) -> short (x_out A) ->
  x_res x = Success /\ x_res A = Success /\ exists answer, x_out A = Some answer /\
  forall bits buf, buf = (priv ++ answer)%list \/ buf = (answer ++ priv)%list ->
  exists B, dh_mod fuel (received bits (Some buf)) rsC = Done (Some (B, rsC)) /\ x_res B = Success /\
  exists kA kB a b, x_k A = Some kA /\ x_k B = Some kB /\ pem_get_mp dh_s (Some priv) = Done (Some b) /\ agreed p q g kA kB a (magnitude b).
Proof.
  intros fuel p q g bitsA bitsB rsA rsB rsC pub priv x rsB' A rsA' Pp P2 Pq Pg HA HB BA BB EK FP FV EA FA.
  destruct (DhProofs.key_pair_ok fuel p q g bitsB rsB Pp P2 Pq Pg HB BB) as [X|(pb & pv & x' & rs1 & X & _ & K)]; unfold start in X; unfold context in EK; rewrite X in EK; [discriminate|]. injection EK as <- -> <- <-. destruct (K FP) as (b & t & pr & Epr & Pb & Pt & Lb & Vt & PB & R). injection Epr as <-. destruct (R FV) as [Sx Rp].
  destruct (mod_sender fuel p q g t pb bitsA rsA PB Pp P2 Pq Pg Pt HA BA) as [Y|(a & u & kA & out & xa & rs2 & Y & S1 & Ka & Oa & Pa & La & Pu & Vu & PkA & VkA & LkA & Ra)]; unfold received in EA; rewrite Y in EA; [discriminate|]. injection EA as <- <-. rewrite Oa in FA. specialize (Ra FA). split; [exact Sx|]. split; [exact S1|]. exists out. split; [exact Oa|].
  assert (forall buf, buf = (priv ++ out)%list \/ buf = (out ++ priv)%list -> exists m, rel (Some buf) m /\ m dh_u = Some (mp_image u) /\ m dh_p = Some (mp_image p) /\ m dh_s = Some (mp_image b)) as RB.
  { intros buf [->| ->].
    - eexists. split; [apply (rel_concat priv out _ _ Rp Ra)|]. cbn [map_of fold_left fst snd]. repeat split.
    - eexists. split; [apply (rel_concat out priv _ _ Ra Rp)|]. cbn [map_of fold_left fst snd]. repeat split. }
  intros bits buf Hbuf. destruct (RB buf Hbuf) as (m & Rm & M1 & M2 & M3). destruct (mod_receiver fuel p b u buf m bits rsC Rm M1 M2 M3 Pp P2 Pb Pu) as (kB & xb & Z & S2 & Kb & PkB & VkB & LkB). exists xb. split; [exact Z|]. split; [exact S2|]. exists kA, kB, (magnitude a), b. split; [exact Ka|]. split; [exact Kb|]. split; [apply (get_mp_ok _ _ dh_s b Rp ltac:(RsaProofs.hdr)); [reflexivity|exact Pb]|].
  destruct (make_agreed p q g kB kA (magnitude b) (magnitude a) t u Pp P2 Lb La Vt Vu VkA VkB LkB LkA) as (A1 & A2 & A3 & A4 & A5). rewrite (N.mul_comm (magnitude b)) in *. split; [exact A2|]. split; [exact A1|]. split; [exact A4|]. split; [exact A3|]. intro D. destruct (A5 D). split; assumption.
Qed.
(* The bits of the secret are 0 in a new context, and then every exchange shifts a 64-bit value by 64. *)
Theorem dh_default_bits_refuted : forall fuel p q g rs, number p -> 2 <= magnitude p -> order_ok q ->
  dh_std fuel (with_pqg xchg0 (Some p) q (Some g)) rs = UB /\ dh_key_pair fuel None None (with_pqg xchg0 (Some p) q (Some g)) rs = UB.
Proof.
  intros fuel p q g rs Pp P2 Pq. assert (forall o, number o -> 2 <= magnitude o -> random_s fuel o 0 rs = UB) as U. { intros o Po O2. unfold random_s. rewrite (assign_pos o Po). destruct (pos_sub o (num 2) Po (pos_num 2 ltac:(reflexivity))) as (z & E & _ & _); [rewrite mag_num; exact O2|]. rewrite E. reflexivity. }
  unfold dh_std, dh_key_pair, std_t, std_tail, xsecret. cbn [x_p x_g x_q x_t x_in x_s x_bits with_pqg xchg0]. destruct q as [q|]; [destruct Pq as [Pq Q2]; rewrite (U q Pq Q2)|rewrite (U p Pp P2)]; split; reflexivity.
Qed.
(* A key pair made into buffers that are in use frees the old public key and goes on reading it. *)
Theorem dh_key_pair_reuse_refuted : forall fuel p q g bits rs old priv, number p -> 2 <= magnitude p -> order_ok q -> number g -> bits <> 0 -> bytes rs ->
  dh_key_pair fuel (Some old) priv (context p q g bits) rs = Done None (* no more random bytes *) \/ dh_key_pair fuel (Some old) priv (context p q g bits) rs = UB.
Proof.
  intros fuel p q g bits rs old priv Pp P2 Pq Pg Hb B. unfold dh_key_pair, context. cbn [x_p x_g x_q x_bits with_bits with_pqg xchg0]. fold (order p q). destruct (order_pos p q Pp P2 Pq) as [Po O2]. destruct (random_s_ok fuel (order p q) bits rs Po O2 Hb B) as [E|(s & rs1 & E & Ps & _)]; rewrite E; cbn [obind]; [left; reflexivity|right].
  unfold eval_t. destruct (me_mod_n_ok g s p Pg (proj1 Ps) Pp ltac:(clear - P2; lia)) as (t & Et & _). rewrite Et. reflexivity.
Qed.
(* C97. Group i gives a p of the announced number of bits, with 64 one bits at both ends as in RFC 3526, and g = 2, and it is the number of that RFC (DhSpec.v); the number 6 is
   accepted and reads behind the table; larger ones are refused. *)
Definition announced : list N := [1536; 2048; 3072; 4096; 6144; 8192].
Definition group_check (i : nat) : bool :=
  match dh_get_modp (N.of_nat i) with
  | Done (Success, Some (p, g)) =>
      let m := magnitude p in let bits := nth i announced 0 in
      (N.size m =? bits) && (N.land m (N.ones 64) =? N.ones 64) && (N.shiftr m (bits - 64) =? N.ones 64) && (magnitude g =? 2) && (m =? let '(n, c) := nth i RFC3526 (0, 0) in modp n c) && negb (neg p) && negb (neg g) && forallb (fun d => d <? 2 ^ 64) (data p) && negb (match data p with [] => true | _ => false end)
  | _ => false
  end%bool.
Lemma groups_checked : forallb group_check (seq 0 6) = true. Proof. vm_compute. reflexivity. Qed.
Theorem dh_groups_announced : forall i, i < 6 -> exists p g, dh_get_modp i = Done (Success, Some (p, g)) /\ number p /\ N.size (magnitude p) = nth (N.to_nat i) announced 0 /\
  magnitude p mod 2 ^ 64 = 2 ^ 64 - 1 /\ magnitude p / 2 ^ (nth (N.to_nat i) announced 0 - 64) = 2 ^ 64 - 1 /\ magnitude g = 2 /\
  magnitude p = let '(n, c) := nth (N.to_nat i) RFC3526 (0, 0) in modp n c.
Proof.
  intros i Hi. pose proof groups_checked as C. rewrite forallb_forall in C. specialize (C (N.to_nat i)). rewrite in_seq in C. specialize (C ltac:(lia)). unfold group_check in C. rewrite N2Nat.id in C. destruct (dh_get_modp i) as [[r o]|]; [|discriminate]. destruct r; try discriminate. destruct o as [[p g]|]; [|discriminate]. cbv zeta in C. set (bits := nth (N.to_nat i) announced 0) in *. clearbody bits.
  repeat (apply andb_prop in C; let X := fresh "X" in destruct C as [C X]). exists p, g. split; [reflexivity|]. split.
  - split; [|apply Bool.negb_true_iff; assumption]. split; [destruct (data p); [discriminate|congruence]|]. apply Forall_forall. intros d Hd. match goal with H : forallb _ _ = true |- _ => rewrite forallb_forall in H; apply N.ltb_lt, H, Hd end.
  - rewrite <- (N.land_ones (magnitude p) 64), <- N.shiftr_div_pow2. split; [apply N.eqb_eq; exact C|]. split; [etransitivity; [apply N.eqb_eq; eassumption|reflexivity]|]. split; [etransitivity; [apply N.eqb_eq; eassumption|reflexivity]|]. split; apply N.eqb_eq; assumption.
Qed.
Theorem dh_group_six_refuted : dh_get_modp 6 = UB. Proof. reflexivity. Qed.
Theorem dh_group_range : forall i, 6 < i -> dh_get_modp i = Done (InvalidParams, None).
Proof. intros i H. unfold dh_get_modp. assert (6 <? i = true) as -> by (apply N.ltb_lt; exact H). reflexivity. Qed.

(* p = 23, g = 5: a = 6, b = 15 give the key 2 *)
Example dh_meets : let p := num 23 in let g := num 5 in one_digit p /\ number g /\
  exists A B A2, dh_std 5 (context p None g 5) [0; 0; 0; 0; 0; 0; 0; 6] = Done (Some (A, [])) /\ short (x_out A) /\
  dh_std 5 (received 5 (x_out A)) [0; 0; 0; 0; 0; 0; 0; 15] = Done (Some (B, [])) /\ short (x_out B) /\
  dh_std 5 (with_in A (x_out B)) [] = Done (Some (A2, [])) /\ x_k A2 = Some (num 2) /\ x_k B = Some (num 2).
Proof.
  cbv zeta. split; [apply digit_num; split; reflexivity|]. split; [apply pos_num; reflexivity|]. eexists _, _, _. split; [vm_compute; reflexivity|]. split; [reflexivity|]. split; [vm_compute; reflexivity|]. split; [reflexivity|]. split; [vm_compute; reflexivity|]. split; reflexivity.
Qed.
Example dh_modified_meets : let p := num 23 in let g := num 5 in
  exists pub priv x A, dh_key_pair 5 None None (context p None g 5) [0; 0; 0; 0; 0; 0; 0; 6] = Done (Some (pub, Some priv, x, [])) /\ short pub /\ fits priv /\
  dh_mod 5 (received 5 pub) [0; 0; 0; 0; 0; 0; 0; 15] = Done (Some (A, [])) /\ short (x_out A) /\ x_k A = Some (num 2).
Proof.
  cbv zeta. eexists _, _, _, _. split; [vm_compute; reflexivity|]. split; [reflexivity|]. split; [reflexivity|]. split; [vm_compute; reflexivity|]. split; reflexivity.
Qed.

Print Assumptions dh_standard_agreement_partial.
Print Assumptions dh_modified_agreement_partial.
Print Assumptions dh_default_bits_refuted.
Print Assumptions dh_key_pair_reuse_refuted.
Print Assumptions dh_groups_announced.
Print Assumptions dh_group_six_refuted.
Print Assumptions dh_group_range.
