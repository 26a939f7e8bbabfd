(* C53, C54: the OAEP and PSS paddings against RFC 8017 (PadSpec.v). "implements p H B hs" (MacProofs.v): the pointers p compute the hash
   function H, with digests of hs bytes; MacProps.v has it for the MD4 family. the_label: no label is the empty label. *)
From Verif Require Import Words EncSpec TaskModel CipherBase CipherLib HashModel MacModel MacProofs MpModel MpModel2 MpSpec MpProofs MpProofs3 MpProofs6 PemModel PkLib RsaModel RsaProofs PadModel PadSpec PadProofs.
Open Scope N_scope.

Definition a_label (l : option (list N)) : Prop := octets (the_label l) /\ N.of_nat (length (the_label l)) < 2 ^ 60.
Definition a_seed (hs : nat) (s : list N) : Prop := octets s /\ length s = hs.
Definition a_message (m : list N) : Prop := octets m /\ m <> [].

Theorem mgf_is_mgf1 : forall p H B hs fn seed len, implements p H B hs -> h_fn p = Some fn -> octets seed -> N.of_nat (length seed) < 2 ^ 60 -> N.of_nat len < 2 ^ 32 ->
  padding_mgf fn seed len = Done (MGF1 H hs seed len) /\ length (MGF1 H hs seed len) = len.
Proof. intros p H B hs fn seed len I F O L1 L2. split; [apply (mgf_ok p H B hs I fn F); assumption|apply (mgf_len p H B hs I fn F); assumption]. Qed.

(* C53. The padded block is that of the standard and k bytes long; a message that does not fit is refused. *)
Theorem oaep_is_standard : forall p H B hs mz k label seed m, implements p H B hs -> N.of_nat k < 2 ^ 32 -> a_label label -> a_seed hs seed -> a_message m ->
  (length m + 2 * hs + 2 <= k)%nat -> mz = true \/ (length m + 2 * hs + 2 < k)%nat ->
  apply_oaep mz p (Some m) k label seed = Done (Some (OAEP H hs k (the_label label) m seed)) /\ length (OAEP H hs k (the_label label) m seed) = k.
Proof.
  intros p H B hs mz k label seed m I Lk (OL & LL) (Os & Ls) (Om & Nm) Lm Mz. assert (I' := I). destruct I' as (_ & _ & _ & _ & fn & F & X).
  split; [apply (apply_ok p H B hs I fn F k Lk ltac:(lia)); assumption|]. destruct (X (the_label label) OL ltac:(clear - LL; lia)) as (_ & Lh & Oh).
  destruct (mask_parts p H B hs I fn F k Lk ltac:(lia) (OAEP_DB H hs k (the_label label) m) seed (DB_octets H hs k _ _ Oh Om) (DB_len H hs k _ _ Lh Lm) Os Ls) as (ms & md & E & _ & _ & L1 & L2 & _).
  unfold OAEP. rewrite E. cbn [length]. rewrite app_length. lia.
Qed.
Theorem oaep_too_long : forall p H B hs mz k label seed m, implements p H B hs -> (k < length m + 2 * hs + 2)%nat -> apply_oaep mz p (Some m) k label seed = Done None.
Proof.
  intros p H B hs mz k label seed m I L. assert (I' := I). destruct I' as (_ & _ & _ & _ & fn & F & _). unfold apply_oaep. destruct m as [|b m]; [reflexivity|]. rewrite (oaep_ptrs p H B hs I fn F).
  destruct (Nat.ltb k (length (b :: m))); [reflexivity|]. destruct (Nat.ltb k hs); [reflexivity|]. rewrite (proj2 (Nat.ltb_lt k _) L). reflexivity.
Qed.
Theorem oaep_round_trip : forall p H B hs mz k label seed m, implements p H B hs -> N.of_nat k < 2 ^ 32 -> a_label label -> a_seed hs seed -> a_message m ->
  (length m + 2 * hs + 2 <= k)%nat -> mz = true \/ (length m + 2 * hs + 2 < k)%nat ->
  exists em, apply_oaep mz p (Some m) k label seed = Done (Some em) /\ drop_oaep p (Some em) k label = Done (Some m).
Proof.
  intros p H B hs mz k label seed m I Lk HL HS HM Lm Mz. destruct (oaep_is_standard p H B hs mz k label seed m I Lk HL HS HM Lm Mz) as [E Le]. exists (OAEP H hs k (the_label label) m seed). split; [exact E|].
  destruct HL as (OL & LL). destruct HS as (Os & Ls). destruct HM as (Om & Nm). assert (I' := I). destruct I' as (_ & _ & _ & _ & fn & F & X). destruct (X (the_label label) OL ltac:(clear - LL; lia)) as (_ & Lh & Oh).
  pose proof (unmask p H B hs I fn F k Lk ltac:(lia) _ seed (DB_octets H hs k _ _ Oh Om) (DB_len H hs k _ _ Lh Lm) Os Ls) as U.
  destruct (mask_parts p H B hs I fn F k Lk ltac:(lia) (OAEP_DB H hs k (the_label label) m) seed (DB_octets H hs k _ _ Oh Om) (DB_len H hs k _ _ Lh Lm) Os Ls) as (ms & md & E1 & _ & _ & L1 & L2 & O1 & O2).
  unfold OAEP in *. rewrite E1 in *. rewrite (drop_ok p H B hs I fn F k Lk ltac:(lia) label _ OL LL); [|apply octets_app; assumption|cbn [length] in Le; lia]. rewrite U. apply parse_some; [exact Lh|apply DB_len; assumption|]. split; [exact Lm|reflexivity].
Qed.
(* Nothing else is accepted: a block of k bytes is unpadded to m only if it is the padding of m under this label, for some seed. So a block
   made with a label of another hash is refused. *)
Theorem oaep_drop_sound : forall p H B hs k label em m, implements p H B hs -> N.of_nat k < 2 ^ 32 -> a_label label -> octets em -> length em = k -> (2 * hs + 1 <= k)%nat ->
  drop_oaep p (Some em) k label = Done (Some m) -> (length m + 2 * hs + 2 <= k)%nat /\ exists seed, a_seed hs seed /\ em = OAEP H hs k (the_label label) m seed.
Proof.
  intros p H B hs k label em m I Lk (OL & LL) Oe Le Hk D. assert (I' := I). destruct I' as (_ & _ & _ & _ & fn & F & X). destruct (X (the_label label) OL ltac:(clear - LL; lia)) as (_ & Lh & Oh).
  destruct em as [|b rest]; [discriminate|]. assert (b = 0) as ->. { unfold drop_oaep in D. destruct (N.eqb_spec b 0) as [Z|]; [exact Z|discriminate]. }
  assert (octets rest) as Or by (inversion Oe; assumption). assert (length rest = (k - 1)%nat) as Lr by (cbn [length] in Le; lia).
  rewrite (drop_ok p H B hs I fn F k Lk Hk label rest OL LL Or Lr) in D. destruct (mask_unmask p H B hs I fn F k Lk Hk rest Or Lr) as (M & L3 & O3 & L4 & O4). apply parse_some in D; [|exact Lh|exact L4]. destruct D as [Lm Ed].
  split; [exact Lm|]. exists (seed_of H hs (0 :: rest)). split; [split; assumption|]. unfold OAEP. rewrite <- Ed. symmetry. exact M.
Qed.
Theorem oaep_wrong_label : forall p H B hs mz k label label' seed m, implements p H B hs -> N.of_nat k < 2 ^ 32 -> a_label label -> a_label label' -> a_seed hs seed -> a_message m ->
  (length m + 2 * hs + 2 <= k)%nat -> mz = true \/ (length m + 2 * hs + 2 < k)%nat -> H (the_label label) <> H (the_label label') ->
  exists em, apply_oaep mz p (Some m) k label seed = Done (Some em) /\ drop_oaep p (Some em) k label' = Done None.
Proof.
  intros p H B hs mz k label label' seed m I Lk HL HL' HS HM Lm Mz Ne. destruct (oaep_is_standard p H B hs mz k label seed m I Lk HL HS HM Lm Mz) as [E Le]. exists (OAEP H hs k (the_label label) m seed). split; [exact E|].
  destruct HL as (OL & LL). destruct HL' as (OL' & LL'). destruct HS as (Os & Ls). destruct HM as (Om & Nm). assert (I' := I). destruct I' as (_ & _ & _ & _ & fn & F & X). destruct (X (the_label label) OL ltac:(clear - LL; lia)) as (_ & Lh & Oh).
  pose proof (unmask p H B hs I fn F k Lk ltac:(lia) _ seed (DB_octets H hs k _ _ Oh Om) (DB_len H hs k _ _ Lh Lm) Os Ls) as U.
  destruct (mask_parts p H B hs I fn F k Lk ltac:(lia) (OAEP_DB H hs k (the_label label) m) seed (DB_octets H hs k _ _ Oh Om) (DB_len H hs k _ _ Lh Lm) Os Ls) as (ms & md & E1 & _ & _ & L1 & L2 & O1 & O2).
  unfold OAEP in *. rewrite E1 in *. rewrite (drop_ok p H B hs I fn F k Lk ltac:(lia) label' _ OL' LL'); [|apply octets_app; assumption|cbn [length] in Le; lia]. rewrite U. unfold parse, OAEP_DB. rewrite (firstn_exact _ _ _ hs Lh).
  destruct (eqb_list (H (the_label label)) (H (the_label label'))) eqn:Q; [apply eqb_list_eq in Q; contradiction|reflexivity].
Qed.
(* The removal is defined for every block of k bytes but those whose data block is the hash of the label and zeros: there it reads the
   byte behind its buffer. *)
Theorem oaep_drop_defined : forall p H B hs k label em, implements p H B hs -> N.of_nat k < 2 ^ 32 -> a_label label -> octets em -> length em = k -> (2 * hs + 1 <= k)%nat ->
  drop_oaep p (Some em) k label = UB -> exists seed, a_seed hs seed /\ em = OAEP_mask H hs k (H (the_label label) ++ repeat 0 (k - 2 * hs - 1)) seed.
Proof.
  intros p H B hs k label em I Lk (OL & LL) Oe Le Hk D. assert (I' := I). destruct I' as (_ & _ & _ & _ & fn & F & X). destruct (X (the_label label) OL ltac:(clear - LL; lia)) as (_ & Lh & Oh).
  destruct em as [|b rest]; [discriminate|]. assert (b = 0) as ->. { unfold drop_oaep in D. destruct (N.eqb_spec b 0) as [Z|]; [exact Z|discriminate]. }
  assert (octets rest) as Or by (inversion Oe; assumption). assert (length rest = (k - 1)%nat) as Lr by (cbn [length] in Le; lia).
  rewrite (drop_ok p H B hs I fn F k Lk Hk label rest OL LL Or Lr) in D. destruct (mask_unmask p H B hs I fn F k Lk Hk rest Or Lr) as (M & L3 & O3 & L4 & O4).
  exists (seed_of H hs (0 :: rest)). split; [split; assumption|]. rewrite <- M at 1. f_equal. revert D. unfold parse. set (db := db_of H hs k (0 :: rest)) in *.
  destruct (eqb_list (firstn hs db) (H (the_label label))) eqn:Q; [|discriminate]. apply eqb_list_eq in Q. cbv zeta. pose proof (zero_run_split (skipn hs db)) as Z.
  destruct (skipn (zero_run (skipn hs db)) (skipn hs db)) as [|x m]; [|destruct (x =? 1); [destruct (Nat.eqb _ k); discriminate|discriminate]]. intros _. rewrite <- Q. rewrite <- (firstn_skipn hs db) at 1. f_equal. rewrite app_nil_r in Z. rewrite Z. f_equal.
  apply (f_equal (@length N)) in Z. rewrite repeat_length, skipn_length, L4 in Z. lia.
Qed.
Theorem oaep_overread_refuted : forall p H B hs k label seed, implements p H B hs -> N.of_nat k < 2 ^ 32 -> a_label label -> a_seed hs seed -> (2 * hs + 1 <= k)%nat ->
  drop_oaep p (Some (OAEP_mask H hs k (H (the_label label) ++ repeat 0 (k - 2 * hs - 1)) seed)) k label = UB.
Proof.
  intros p H B hs k label seed I Lk (OL & LL) (Os & Ls) Hk. assert (I' := I). destruct I' as (_ & _ & _ & _ & fn & F & X). destruct (X (the_label label) OL ltac:(clear - LL; lia)) as (_ & Lh & Oh).
  set (DB := H (the_label label) ++ repeat 0 (k - 2 * hs - 1)). assert (octets DB) as OD by (apply octets_app; [exact Oh|apply octets_zeros]). assert (length DB = (k - hs - 1)%nat) as LD by (unfold DB; rewrite app_length, repeat_length; lia).
  pose proof (unmask p H B hs I fn F k Lk Hk DB seed OD LD Os Ls) as U. destruct (mask_parts p H B hs I fn F k Lk Hk DB seed OD LD Os Ls) as (ms & md & E1 & _ & _ & L1 & L2 & O1 & O2). rewrite E1 in *.
  rewrite (drop_ok p H B hs I fn F k Lk Hk label _ OL LL); [|apply octets_app; assumption|rewrite app_length; lia]. rewrite U. unfold parse, DB. rewrite (firstn_exact _ _ _ hs Lh), (proj2 (eqb_list_eq _ _) eq_refl). cbv zeta.
  rewrite (skipn_exact _ _ _ hs Lh), zero_run_all. rewrite skipn_all2; [reflexivity|]. rewrite repeat_length. lia.
Qed.

(* C54. The encoding is EMSA-PSS with eight bits cleared if there is padding (the standard clears at most seven) and none otherwise;
   verification accepts exactly the encodings of the message, for some salt of the given size. *)
Theorem pss_is_standard : forall p H B hs m salt, implements p H B hs -> octets m -> N.of_nat (length m) < 2 ^ 32 -> octets salt -> (hs + length salt + 2 <= length m)%nat ->
  pss_encode p (Some m) salt = Done (Some (PSS H hs (cleared hs (length m) (length salt)) (length m) m salt)).
Proof. intros p H B hs m salt I Om Lm Os L. assert (I' := I). destruct I' as (_ & _ & _ & _ & fn & F & _). apply (encode_ok p H B hs I fn F (length m) (length salt)); try assumption; reflexivity. Qed.
Theorem pss_verify_exact : forall p H B hs m em k sLen, implements p H B hs -> a_message m -> N.of_nat (length m) < 2 ^ 60 -> octets em -> N.of_nat (length em) < 2 ^ 32 -> (0 < k)%nat -> (hs + sLen + 2 <= length em)%nat ->
  exists b, pss_verify p m em k sLen = Done b /\ (b = true <-> exists salt, octets salt /\ length salt = sLen /\ em = PSS H hs (cleared hs (length em) sLen) (length em) m salt).
Proof. intros p H B hs m em k sLen I (Om & Nm) Lm Oe Le Hk L. assert (I' := I). destruct I' as (_ & _ & _ & _ & fn & F & _). apply (verify_ok p H B hs I fn F (length em) sLen); try assumption; reflexivity. Qed.
Theorem pss_short_refused : forall p H B hs m em k sLen, implements p H B hs -> (length em < hs + sLen + 2)%nat -> pss_verify p m em k sLen = Done false.
Proof.
  intros p H B hs m em k sLen I L. assert (I' := I). destruct I' as (_ & _ & _ & _ & fn & F & _). unfold pss_verify. destruct (_ || _)%bool; [reflexivity|]. rewrite (pss_ptrs p H B hs I fn F). rewrite (proj2 (Nat.ltb_lt _ _) L). reflexivity.
Qed.
Theorem pss_round_trip : forall p H B hs m salt k, implements p H B hs -> a_message m -> N.of_nat (length m) < 2 ^ 32 -> octets salt -> (0 < k)%nat -> (hs + length salt + 2 <= length m)%nat ->
  exists em, pss_encode p (Some m) salt = Done (Some em) /\ length em = length m /\ pss_verify p m em k (length salt) = Done true.
Proof.
  intros p H B hs m salt k I HM Lm Os Hk L. destruct HM as (Om & Nm). assert (I' := I). destruct I' as (_ & _ & _ & _ & fn & F & X).
  pose proof (pss_is_standard p H B hs m salt I Om Lm Os L) as E. eexists. split; [exact E|]. set (em := PSS H hs _ _ m salt).
  assert (length em = length m /\ octets em) as [Le Oe].
  { unfold em, PSS. destruct (mp_ok p H B hs I fn F (length m) (length salt) Lm L m salt Om ltac:(clear - Lm; lia) Os eq_refl) as (_ & _ & _ & LH & OH). set (Hd := H (repeat 0 8 ++ H m ++ salt)) in *. assert (N.of_nat (length Hd) < 2 ^ 60) as S2 by (rewrite LH; clear - Lm L; lia).
    pose proof (mgf_len p H B hs I fn F Hd (length m - hs - 1) OH S2) as ML. pose proof (mgf_octets p H B hs I fn F Hd (length m - hs - 1) OH S2) as MO. split.
    - rewrite !app_length, clear_len, xorl_length, ML, !app_length, repeat_length, LH. cbn [length]. lia.
    - apply octets_app; [|apply octets_app; [exact OH|constructor; [reflexivity|constructor]]]. unfold cleared.
      assert (octets (xorl (repeat 0 (length m - length salt - hs - 2) ++ [1] ++ salt) (MGF1 H hs Hd (length m - hs - 1)))) as OX. { apply SipProofs.octets_xorl; [|exact MO]. apply octets_app; [apply octets_zeros|]. apply octets_app; [constructor; [reflexivity|constructor]|exact Os]. }
      destruct (xorl _ _) as [|x l]; [constructor|]. inversion OX; subst. cbn [clear]. constructor; [|assumption]. match goal with H : x < _ |- _ => rename H into Hx end.
      destruct (Nat.ltb _ _); [change (2 ^ (8 - 8)) with 1; rewrite N.mod_1_r; reflexivity|]. apply N.mod_lt. discriminate. }
  split; [exact Le|]. destruct (pss_verify_exact p H B hs m em k (length salt) I (conj Om Nm) ltac:(clear - Lm; lia) Oe ltac:(rewrite Le; exact Lm) Hk ltac:(rewrite Le; exact L)) as (b & V & T). rewrite V. f_equal. apply T. exists salt. split; [exact Os|]. split; [reflexivity|]. rewrite Le. reflexivity.
Qed.
(* Messages shorter than hash, salt and two bytes cannot be encoded: the block has the size of the message, not that of the modulus. *)
Theorem pss_short_message_refuted : forall p H B hs m salt, implements p H B hs -> (length m < hs + length salt + 2)%nat -> pss_encode p (Some m) salt = Done None.
Proof. intros p H B hs m salt I L. assert (I' := I). destruct I' as (_ & _ & _ & _ & fn & F & _). unfold pss_encode. rewrite (pss_ptrs p H B hs I fn F), (proj2 (Nat.ltb_lt _ _) L). reflexivity. Qed.
(* Encodings by the standard are refused if their first byte is not zero and there is padding. *)
Theorem pss_standard_encodings_refuted : forall p H B hs m em k sLen, implements p H B hs -> a_message m -> N.of_nat (length m) < 2 ^ 60 -> octets em -> N.of_nat (length em) < 2 ^ 32 -> (0 < k)%nat -> (hs + sLen + 2 < length em)%nat ->
  nth 0 em 0 <> 0 -> pss_verify p m em k sLen = Done false.
Proof.
  intros p H B hs m em k sLen I HM Lm Oe Le Hk L Ne. destruct (pss_verify_exact p H B hs m em k sLen I HM Lm Oe Le Hk ltac:(lia)) as ([|] & V & T); [|exact V]. destruct (proj1 T eq_refl) as (salt & Os & Ls & E).
  assert (cleared hs (length em) sLen = 8) as C. { unfold cleared. rewrite (proj2 (Nat.ltb_lt _ _) L). reflexivity. } rewrite C in E. unfold PSS in E. rewrite Ls in E. remember (xorl _ _) as x eqn:Ex in E. revert E. destruct x as [|y x].
  - assert (I' := I). destruct I' as (_ & _ & _ & _ & fn & F & _). destruct HM as (Om & _). destruct (mp_ok p H B hs I fn F (length em) sLen Le ltac:(lia) m salt Om Lm Os Ls) as (_ & _ & _ & LH & OH). intros _. exfalso. apply (f_equal (@length N)) in Ex. rewrite xorl_length, (mgf_len p H B hs I fn F) in Ex; [|exact OH|rewrite LH; clear - Le L; lia]. rewrite !app_length, repeat_length in Ex. cbn [length] in Ex. lia.
  - intro E. exfalso. apply Ne. rewrite E. cbn [clear app nth]. change (2 ^ (8 - 8)) with 1. apply N.mod_1_r.
Qed.
(* RSA with PSS: whatever the buffers hold, a signature is accepted only if s^e is modulo n an encoding of the message that comes out. *)
Theorem rsa_pss_verify_sound : forall p H B hs sLen key inp out, implements p H B hs -> rsa_pss_verify p sLen key inp = Done (Success, Some out) -> N.of_nat (length out) < 2 ^ 60 ->
  exists n e s em, pem_get_mp hdr_n (Some key) = Done (Some n) /\ pem_get_mp hdr_e (Some key) = Done (Some e) /\ pem_get_mp hdr_s (Some inp) = Done (Some s) /\
    magnitude n <> 0 /\ be_val em mod magnitude n = magnitude s ^ magnitude e mod magnitude n /\
    (N.of_nat (length em) < 2 ^ 32 -> exists salt, octets salt /\ length salt = sLen /\ em = PSS H hs (cleared hs (length em) sLen) (length em) out salt).
Proof.
  intros p H B hs sLen key inp out I E Lo. unfold rsa_pss_verify, fetch in E. destruct (pem_get_mp hdr_x (Some inp)) as [[x|]|] eqn:Gx; cbn [obind] in E; try discriminate. destruct (pem_get_mp hdr_s (Some inp)) as [[s|]|] eqn:Gs; cbn [obind] in E; try discriminate. destruct (pem_get_mp hdr_e (Some key)) as [[e|]|] eqn:Ge; cbn [obind] in E; try discriminate. destruct (pem_get_mp hdr_n (Some key)) as [[n|]|] eqn:Gn; cbn [obind] in E; try discriminate.
  pose proof (get_mp_pos _ _ _ Gx) as Px. pose proof (get_mp_pos _ _ _ Gs) as Ps. pose proof (get_mp_pos _ _ _ Ge) as Pe. pose proof (get_mp_pos _ _ _ Gn) as Pn. destruct (N.eq_dec (magnitude n) 0) as [Z|Z]; [rewrite (me_mod_zero s e n (proj1 Pe) Pn Z) in E; discriminate|].
  destruct (me_mod_n_ok s e n Ps (proj1 Pe) Pn Z) as (r & Er & Pr & V & _). rewrite Er in E. cbn [obind] in E. destruct (task_out_ok r (proj1 Pr)) as (T1 & T2 & T3). destruct (task_out_ok x (proj1 Px)) as (_ & U2 & U3).
  exists n, e, s, (as_task_out r). split; [reflexivity|]. split; [reflexivity|]. split; [reflexivity|]. split; [exact Z|]. split; [rewrite T1; exact V|]. intro Le.
  destruct (pss_verify p (as_task_out x) (as_task_out r) (8 * (8 * size n)) sLen) as [ok|] eqn:Q; cbn [obind] in E; [|discriminate]. destruct ok; [|discriminate]. injection E as <-.
  destruct (Nat.lt_ge_cases (length (as_task_out r)) (hs + sLen + 2)) as [L|L]; [rewrite (pss_short_refused p H B hs _ _ _ _ I L) in Q; discriminate|].
  destruct (pss_verify_exact p H B hs (as_task_out x) (as_task_out r) (8 * (8 * size n)) sLen I) as (b & V2 & T).
  { split; [apply octets_bytes; exact U3|]. intro X. rewrite X in U2. pose proof (MpProofs.wf_size x (proj1 Px)). cbn [length] in U2. lia. } { exact Lo. } { apply octets_bytes; exact T3. } { exact Le. } { pose proof (MpProofs.wf_size n (proj1 Pn)). lia. } { exact L. }
  rewrite V2 in Q. injection Q as ->. apply T. reflexivity.
Qed.

(* SHA-1, the default: a 64-byte block with a 3-byte message *)
Example pad_meets : implements (ptrs sha1 64 20) (digest sha1) 64 20 /\ a_label (Some [76]) /\ a_seed 20 (repeat 7 20) /\ a_message [0; 1; 0] /\ (length [0; 1; 0] + 2 * 20 + 2 < 64)%nat /\ (20 + length (repeat 9 8) + 2 <= length (repeat 5 40))%nat.
Proof. split; [exact i_sha1|]. split; [split; [repeat constructor|reflexivity]|]. split; [split; [repeat constructor|reflexivity]|]. split; [split; [repeat constructor|discriminate]|]. cbn. lia. Qed.

Print Assumptions mgf_is_mgf1.
Print Assumptions oaep_is_standard.
Print Assumptions oaep_too_long.
Print Assumptions oaep_round_trip.
Print Assumptions oaep_drop_sound.
Print Assumptions oaep_wrong_label.
Print Assumptions oaep_drop_defined.
Print Assumptions oaep_overread_refuted.
Print Assumptions pss_is_standard.
Print Assumptions pss_verify_exact.
Print Assumptions pss_short_refused.
Print Assumptions pss_round_trip.
Print Assumptions pss_short_message_refuted.
Print Assumptions pss_standard_encodings_refuted.
Print Assumptions rsa_pss_verify_sound.
