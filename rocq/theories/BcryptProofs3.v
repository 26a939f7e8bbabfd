(* bcrypt: what kryptos_bcrypt_verify accepts. *)
From Coq Require Import String PeanoNat.
From Verif Require Import Words EncTables EncModel EncSpec EncProofs EncProofs64 BcryptModel BcryptSpec BcryptProofs2.
From Verif Require CipherBase CipherLib StreamModel BcryptProofs.
Notation length := List.length (only parsing).
Notation concat := List.concat (only parsing).
Open Scope string_scope.
Open Scope list_scope.
Open Scope N_scope.
Ltac Zify.zify_post_hook ::= Z.div_mod_to_equations.

Transparent BCRYPT.
Lemma BCRYPT_shape : forall cost salt pw, octets salt -> length salt = 16%nat -> octets pw ->
  exists x y r, x < 64 /\ y < 64 /\ length r = 29%nat /\
  BCRYPT cost salt pw = bc_prefix cost ++ firstn 22 (bc_encode salt) ++ nthN bc_state x :: nthN bc_state y :: r.
Proof.
  intros cost salt pw Hs Ls Hp. unfold BCRYPT. destruct (raw_length cost salt (pw ++ [0])) as [L O].
  generalize dependent (bcrypt_raw cost salt (pw ++ [0])). intros raw L O.
  rewrite <- !bc_encode_spec by (try apply octets_first; assumption).
  assert (length (firstn 23 raw) = 23%nat) as L23 by (rewrite firstn_length, L; reflexivity). clear L O.
  destruct (firstn 23 raw) as [|a [|b [|c t]]]; try discriminate L23.
  assert (length (bc_encode t) = 28%nat) as Le. { rewrite bc_encode_length. cbn [List.length] in L23. replace (length t) with 20%nat by lia. reflexivity. }
  cbn [bc_encode]. rewrite bc_block_chars_vals. unfold vals64.
  exists (gather8 [a; b; c] / 2 ^ 18 mod 64), (gather8 [a; b; c] / 2 ^ 12 mod 64),
    (nthN bc_state (gather8 [a; b; c] / 2 ^ 6 mod 64) :: nthN bc_state (gather8 [a; b; c] mod 64) :: firstn 27 (bc_encode t)).
  split; [apply N.mod_lt; discriminate|]. split; [apply N.mod_lt; discriminate|]. split; [|reflexivity].
  cbn [List.length]. rewrite firstn_length, Le. reflexivity.
Qed.
Opaque BCRYPT.
Lemma BCRYPT_length : forall cost salt pw, octets salt -> length salt = 16%nat -> octets pw -> length (BCRYPT cost salt pw) = 60%nat.
Proof.
  intros cost salt pw Hs Ls Hp. destruct (BCRYPT_shape cost salt pw Hs Ls Hp) as (x & y & r & _ & _ & Lr & ->).
  rewrite !app_length, firstn_length, bc_encode_length, Ls. cbn [List.length bc_prefix]. rewrite Lr. reflexivity.
Qed.
Lemma salt_chars : forall salt, octets salt -> length salt = 16%nat -> exists l v, v < 64 /\ firstn 22 (bc_encode salt) = l ++ [nthN bc_state v] /\ length l = 21%nat.
Proof.
  intros salt Hs Ls. do 16 (destruct salt as [|? salt]; [discriminate Ls|]). destruct salt; [|discriminate Ls].
  cbn [bc_encode]. rewrite !bc_block_chars_vals. unfold vals64, put_pad. cbn [map app firstn List.length Nat.sub].
  match goal with |- context [?a = _] => pose proof (app_removelast_last 0 (l := a)) as E end.
  eexists. eexists. split; [|split; [rewrite E by discriminate; cbn [removelast last]; reflexivity|reflexivity]]. apply N.mod_lt. discriminate.
Qed.
Lemma decode_hash : forall cost salt pw, octets salt -> length salt = 16%nat -> octets pw -> bc_decode (BCRYPT cost salt pw) = Done salt.
Proof.
  intros cost salt pw Hs Ls Hp. destruct (BCRYPT_shape cost salt pw Hs Ls Hp) as (x & y & r & Hx & Hy & Lr & E).
  pose proof (BCRYPT_length cost salt pw Hs Ls Hp) as L. unfold bc_decode. rewrite L. change (Nat.ltb 60 29) with false. cbv iota.
  rewrite E. clear E L. destruct (salt_chars salt Hs Ls) as (l & v & Hv & E & Ll).
  pose proof (bc_decode_loop_ok salt Hs ltac:(rewrite Ls; reflexivity) x y r Hx Hy) as D. rewrite bc_encode_length, Ls in D. change (4 * ((16 + 2) / 3) - 2)%nat with 22%nat in D.
  assert (firstn 29 (bc_prefix cost ++ firstn 22 (bc_encode salt) ++ nthN bc_state x :: nthN bc_state y :: r) = bc_prefix cost ++ l ++ [nthN bc_state v]) as ->.
  { rewrite E, app_assoc, firstn_app. rewrite firstn_all2 by (rewrite !app_length, Ll; cbn [List.length bc_prefix]; lia).
    rewrite !app_length, Ll. cbn [List.length bc_prefix Nat.add Nat.sub firstn]. apply app_nil_r. }
  rewrite !rev_app_distr. cbn [rev app bc_count_pad]. destruct (bc_char v Hv) as [-> _]. cbn [obind]. change (16 <? 0) with false. cbv iota.
  change (skipn 7 (bc_prefix cost ++ firstn 22 (bc_encode salt) ++ nthN bc_state x :: nthN bc_state y :: r)) with (firstn 22 (bc_encode salt) ++ nthN bc_state x :: nthN bc_state y :: r).
  exact D.
Qed.

Lemma eqb_list_refl : forall l, eqb_list l l = true.
Proof. intro l. apply eqb_list_eq. reflexivity. Qed.
Opaque bcrypt bc_decode.
Lemma verify_own : forall cost salt pw, 4 <= cost <= 31 -> octets salt -> length salt = 16%nat -> octets pw -> (length pw <= 72)%nat ->
  bcrypt_verify (Some pw) (N.of_nat (length pw)) (Some (BCRYPT cost salt pw)) = Done true.
Proof.
  intros cost salt pw Hc Hs Ls Hp Lp. unfold bcrypt_verify.
  pose proof (decode_hash cost salt pw Hs Ls Hp) as D. pose proof (BCRYPT_length cost salt pw Hs Ls Hp) as L.
  destruct (BCRYPT_shape cost salt pw Hs Ls Hp) as (x & y & r & _ & _ & _ & E).
  assert (forall i, (i < 7)%nat -> nth i (BCRYPT cost salt pw) 0 = nth i (bc_prefix cost) 0) as P by (intros i Hi; rewrite E; apply app_nth1; exact Hi).
  rewrite !P by lia. cbn [nth bc_prefix]. rewrite L. change (Nat.leb 60 22) with false. cbv iota. cbn [N.eqb Pos.eqb andb negb].
  assert (bc_digit (48 + cost / 10) = true) as -> by (unfold bc_digit; apply andb_true_iff; split; apply N.leb_le; lia).
  assert (bc_digit (48 + cost mod 10) = true) as -> by (unfold bc_digit; apply andb_true_iff; split; apply N.leb_le; lia).
  cbn [andb negb].
  replace (10 * (Z.of_N (48 + cost / 10) - 48) + (Z.of_N (48 + cost mod 10) - 48))%Z with (Z.of_N cost) by lia.
  destruct (Z.ltb_spec (Z.of_N cost) 4); [lia|]. destruct (Z.ltb_spec 31 (Z.of_N cost)); [lia|]. cbn [orb].
  rewrite D. cbn [obind]. rewrite Ls. change (N.of_nat 16) with 16. rewrite bcrypt_spec by assumption.
  destruct (Z.leb_spec 4 (Z.of_N cost)); [|lia]. destruct (Z.leb_spec (Z.of_N cost) 31); [|lia]. destruct (N.leb_spec (N.of_nat (length pw)) 72); [|lia].
  cbn [andb obind]. rewrite N2Z.id, L, eqb_list_refl. reflexivity.
Qed.
Transparent bc_decode.
Lemma decode_octets : forall h s, bc_decode h = Done s -> octets s.
Proof.
  intros h s H. unfold bc_decode in H. destruct (Nat.ltb _ _); [discriminate H|]. destruct (bc_count_pad _) as [n|]; [|discriminate H]. cbn [obind] in H.
  destruct (16 <? n); [discriminate H|]. apply bc_decode_bytes in H. apply H.
Qed.
Opaque bc_decode.
Transparent bcrypt.
Lemma bcrypt_other_salt : forall cost s n pw k, n <> 16 -> bcrypt cost s n (Some pw) k true = Done None.
Proof.
  intros. unfold bcrypt. destruct (N.eqb_spec n 16); [contradiction|]. cbn [negb]. rewrite orb_true_r. reflexivity.
Qed.
Opaque bcrypt.
Lemma verify_sound : forall pw h, octets pw -> bcrypt_verify (Some pw) (N.of_nat (length pw)) (Some h) = Done true ->
  (length pw <= 72)%nat /\ exists cost salt, 4 <= cost <= 31 /\ octets salt /\ length salt = 16%nat /\ h = BCRYPT cost salt pw.
Proof.
  intros pw h Hp H. unfold bcrypt_verify in H.
  destruct (Nat.leb _ 22); [discriminate H|]. destruct (negb _); [discriminate H|]. destruct (negb _); [discriminate H|].
  set (cost := (10 * _ + _)%Z) in H. clearbody cost.
  destruct (Z.ltb_spec cost 4); [discriminate H|]. destruct (Z.ltb_spec 31 cost); [discriminate H|]. cbn [orb] in H.
  destruct (bc_decode h) as [s|] eqn:Es; [|discriminate H]. cbn [obind] in H. apply decode_octets in Es.
  destruct (Nat.eq_dec (length s) 16) as [Ls|Ls].
  - rewrite Ls in H. change (N.of_nat 16) with 16 in H. rewrite bcrypt_spec in H by assumption.
    destruct (Z.leb_spec 4 cost); [|lia]. destruct (Z.leb_spec cost 31); [|lia]. cbn [andb obind] in H.
    destruct (N.leb_spec (N.of_nat (length pw)) 72); [|discriminate H]. split; [lia|]. exists (Z.to_N cost), s. split; [lia|]. split; [exact Es|]. split; [exact Ls|].
    match type of H with Done ?b = _ => assert (b = true) as Hb by congruence end. apply andb_true_iff in Hb as [_ Hb]. apply eqb_list_eq in Hb. symmetry. exact Hb.
  - rewrite bcrypt_other_salt in H by lia. discriminate H.
Qed.

(* ---------------------------------------------------------------- when it is defined *)
Lemma rd_ok : forall c, c < 255 -> exists v, rd bc_state_1 (eq_to_nul c) = Done v.
Proof.
  intros c Hc. unfold rd. assert (eq_to_nul c < 255) as H by (unfold eq_to_nul; destruct (c =? 61); [reflexivity|exact Hc]).
  destruct (nth_error bc_state_1 (N.to_nat (eq_to_nul c))) eqn:E; [eexists; reflexivity|].
  apply nth_error_None in E. change (length bc_state_1) with 255%nat in E. lia.
Qed.
Lemma decode_loop_defined : forall n left l, Forall (fun c => c < 255) l -> left <= 3 * N.of_nat n -> (4 * n <= length l)%nat -> exists w, bc_decode_loop left l = Done w.
Proof.
  induction n as [|n IH]; intros left l F Hl HL.
  - assert (left = 0) as -> by lia. destruct l as [|? [|? [|? [|? ?]]]]; eexists; reflexivity.
  - destruct l as [|c0 [|c1 [|c2 [|c3 r]]]]; cbn [List.length] in HL; try lia.
    inversion F as [|? ? H0 F0]; subst. inversion F0 as [|? ? H1 F1]; subst. inversion F1 as [|? ? H2 F2]; subst. inversion F2 as [|? ? H3 F3]; subst.
    destruct (rd_ok c0 H0) as [v0 E0]. destruct (rd_ok c1 H1) as [v1 E1]. destruct (rd_ok c2 H2) as [v2 E2]. destruct (rd_ok c3 H3) as [v3 E3].
    destruct (N.eqb_spec left 0) as [Z|Z]. { subst. eexists. reflexivity. }
    rewrite (bc_decode_step left c0 c1 c2 c3 v0 v1 v2 v3 r E0 E1 E2 E3) by (apply N.eqb_neq; exact Z). cbv zeta.
    destruct (left =? 1); [eexists; reflexivity|]. destruct (left =? 2); [eexists; reflexivity|].
    destruct (IH (left - 3) r F3 ltac:(lia) ltac:(lia)) as [w ->]. eexists. reflexivity.
Qed.
Lemma count_pad_last : forall c l, c <> 61 -> bc_count_pad (c :: l) = Done 0.
Proof. intros c l H. cbn [bc_count_pad]. rewrite (proj2 (N.eqb_neq _ _) H). reflexivity. Qed.
Transparent bc_decode.
Lemma decode_defined : forall h, (31 <= length h)%nat -> Forall (fun c => c < 255) h -> nth 28 h 0 <> 61 -> exists s, bc_decode h = Done s.
Proof.
  intros h HL F Hn. unfold bc_decode. destruct (Nat.ltb_spec (length h) 29); [lia|].
  assert (firstn 29 h = firstn 28 h ++ [nth 28 h 0]) as ->.
  { clear F Hn. do 29 (destruct h as [|? h]; [cbn in HL; lia|]). reflexivity. }
  rewrite rev_app_distr. cbn [rev app]. rewrite count_pad_last by exact Hn. cbn [obind]. change (16 <? 0) with false. cbv iota.
  apply (decode_loop_defined 6); [|lia|rewrite skipn_length; lia]. rewrite <- (firstn_skipn 7 h) in F. apply Forall_app in F. apply F.
Qed.
Opaque bc_decode.
Transparent bcrypt.
Lemma bcrypt_defined : forall cost s pw, exists t, bcrypt cost (Some s) (N.of_nat (length s)) (Some pw) (N.of_nat (length pw)) true = Done t.
Proof.
  intros cost s pw. unfold bcrypt. destruct (_ || _ || _ || _ || _ || _)%bool eqn:E; [eexists; reflexivity|].
  rewrite buf_all'. cbn [obind]. rewrite !orb_false_iff in E. destruct E as (((((_ & _) & E) & _) & _) & _). apply negb_false_iff, N.eqb_eq in E.
  pose proof (buf_all' s) as Eb. rewrite E in Eb. rewrite Eb. cbn [obind]. eexists. reflexivity.
Qed.
Opaque bcrypt.
Lemma verify_defined : forall pw h, (length h <= 22 \/ 31 <= length h)%nat -> Forall (fun c => c < 255) h -> nth 28 h 0 <> 61 ->
  exists b, bcrypt_verify (Some pw) (N.of_nat (length pw)) (Some h) = Done b.
Proof.
  intros pw h HL F Hn. unfold bcrypt_verify. destruct (Nat.leb_spec (length h) 22) as [L|L]; [eexists; reflexivity|].
  destruct (negb _); [eexists; reflexivity|]. destruct (negb _); [eexists; reflexivity|]. cbv zeta. destruct (_ || _)%bool; [eexists; reflexivity|].
  destruct (decode_defined h ltac:(lia) F Hn) as [s ->]. cbn [obind].
  match goal with |- context [bcrypt ?c _ _ _ _ _] => destruct (bcrypt_defined c s pw) as [t ->] end. cbn [obind]. destruct t; eexists; reflexivity.
Qed.

(* ---------------------------------------------------------------- passwords *)
Lemma cyclic_twice : forall key i, key <> [] -> cyclic_byte (key ++ key) i = cyclic_byte key i.
Proof.
  intros key i Hn. unfold cyclic_byte. rewrite app_length. assert (length key <> 0)%nat as Hz by (destruct key; [congruence|discriminate]). set (n := length key) in *.
  assert (i mod (n + n) mod n = i mod n)%nat as M.
  { replace (n + n)%nat with (n * 2)%nat by lia. rewrite Nat.mod_mul_r by lia. rewrite Nat.add_mod by lia. rewrite (Nat.mul_comm n), Nat.mod_mul by lia. rewrite Nat.add_0_r, !Nat.mod_mod by lia. reflexivity. }
  pose proof (Nat.mod_upper_bound i (n + n) ltac:(lia)) as U. destruct (Nat.lt_ge_cases (i mod (n + n)) n) as [C|C].
  - rewrite app_nth1 by exact C. rewrite <- M. rewrite (Nat.mod_small (i mod (n + n)) n) by exact C. reflexivity.
  - rewrite app_nth2 by exact C. fold n. f_equal. rewrite <- M. set (j := (i mod (n + n))%nat) in *. clearbody j. clear M.
    replace j with ((j - n) + 1 * n)%nat at 2 by lia. rewrite Nat.mod_add by lia. symmetry. apply Nat.mod_small. lia.
Qed.
Transparent EksBlowfishSetup ExpandKey bcrypt_raw BCRYPT.
Lemma expand_same : forall st salt k1 k2, (forall i, (i < 72)%nat -> cyclic_byte k1 i = cyclic_byte k2 i) -> ExpandKey st salt k1 = ExpandKey st salt k2.
Proof.
  intros st salt k1 k2 H. unfold ExpandKey.
  assert (map (fun i => N.lxor (nth i st 0) (key_word k1 i)) (seq 0 18) = map (fun i => N.lxor (nth i st 0) (key_word k2 i)) (seq 0 18)) as ->; [|reflexivity].
  apply map_ext_in. intros i Hi. apply in_seq in Hi. apply f_equal. unfold key_word. apply f_equal. apply map_ext_in. intros j Hj. apply in_seq in Hj. apply H. lia.
Qed.
Opaque ExpandKey.
Lemma setup_same_gen : forall (X : list N -> list N -> list N -> list N) n p z salt k1 k2, (forall st s, X st s k1 = X st s k2) ->
  N.iter n (fun st => X (X st z k1) z salt) (X p salt k1) = N.iter n (fun st => X (X st z k2) z salt) (X p salt k2).
Proof.
  intros X n p z salt k1 k2 H. rewrite H. generalize (X p salt k2). intro st.
  induction n as [|n IH] using N.peano_ind; [reflexivity|]. rewrite !N.iter_succ, IH, H. reflexivity.
Qed.
Lemma setup_same : forall cost salt k1 k2, (forall i, (i < 72)%nat -> cyclic_byte k1 i = cyclic_byte k2 i) -> EksBlowfishSetup cost salt k1 = EksBlowfishSetup cost salt k2.
Proof.
  intros cost salt k1 k2 H. apply (setup_same_gen ExpandKey). intros st s. apply expand_same, H.
Qed.
Opaque EksBlowfishSetup.
Lemma BCRYPT_same : forall cost salt p1 p2, (forall i, (i < 72)%nat -> cyclic_byte (p1 ++ [0]) i = cyclic_byte (p2 ++ [0]) i) -> BCRYPT cost salt p1 = BCRYPT cost salt p2.
Proof.
  intros cost salt p1 p2 H. unfold BCRYPT, bcrypt_raw. rewrite (setup_same cost salt _ _ H). reflexivity.
Qed.
Lemma repeated_password : forall cost salt pw, BCRYPT cost salt (pw ++ [0] ++ pw) = BCRYPT cost salt pw.
Proof.
  intros cost salt pw. apply BCRYPT_same. intros i _. rewrite app_assoc, <- app_assoc. apply cyclic_twice. destruct pw; discriminate.
Qed.
Lemma key_bytes_differ : forall p1 p2, ~ In 0 p1 -> ~ In 0 p2 -> (length p1 <= 72)%nat -> (length p2 <= 72)%nat ->
  (forall i, (i < 72)%nat -> cyclic_byte (p1 ++ [0]) i = cyclic_byte (p2 ++ [0]) i) -> p1 = p2.
Proof.
  assert (forall p i, (i <= length p)%nat -> cyclic_byte (p ++ [0]) i = nth i (p ++ [0]) 0) as C.
  { intros p i Hi. unfold cyclic_byte. rewrite app_length. cbn [List.length]. rewrite Nat.mod_small by lia. reflexivity. }
  assert (forall p1 p2, ~ In 0 p2 -> (length p1 < length p2)%nat -> (length p2 <= 72)%nat -> (forall i, (i < 72)%nat -> cyclic_byte (p1 ++ [0]) i = cyclic_byte (p2 ++ [0]) i) -> False) as D.
  { intros p1 p2 H2 L L2 H. specialize (H (length p1) ltac:(lia)). rewrite !C in H by lia. rewrite app_nth2, Nat.sub_diag in H by lia. cbn [nth] in H.
    rewrite app_nth1 in H by exact L. apply H2. rewrite H. apply nth_In. exact L. }
  intros p1 p2 H1 H2 L1 L2 H. destruct (Nat.lt_trichotomy (length p1) (length p2)) as [L|[L|L]].
  - destruct (D p1 p2 H2 L L2 H).
  - apply (nth_ext _ _ 0 0 L). intros i Hi. specialize (H i ltac:(lia)). rewrite !C in H by lia. rewrite !app_nth1 in H by lia. exact H.
  - destruct (D p2 p1 H1 L L1). intros i Hi. symmetry. apply H, Hi.
Qed.
