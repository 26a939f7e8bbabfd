(* Lemmas behind PadProps.v. *)
From Verif Require Import Words EncSpec TaskModel CipherBase CipherLib StreamProofs SipProofs HashModel MacModel MacProofs PadModel PadSpec.
From Coq Require Import PeanoNat.
Open Scope N_scope.

Lemma i2osp_bytes : forall c, c < 2 ^ 32 -> i2osp c = be_bytes 4 c.
Proof.
  intros c H. rewrite <- (int4 c H). unfold i2osp. f_equal. symmetry. apply N.mod_small. rewrite N.shiftr_div_pow2. apply N.div_lt_upper_bound; [discriminate|]. exact H.
Qed.
Lemma xorl_comm : forall a b, xorl a b = xorl b a.
Proof. induction a as [|x a IH]; intros [|y b]; cbn; try reflexivity. rewrite N.lxor_comm, IH. reflexivity. Qed.
Lemma octets_firstn' : forall n l, octets l -> octets (firstn n l).
Proof. intros n l H. apply octets_firstn. exact H. Qed.

Section Hash.
  Variable p : hash_ptrs.
  Variable H : list N -> list N.
  Variables B hs : nat.
  Hypothesis I : implements p H B hs.
  Variable fn : list N -> outcome (list N).
  Hypothesis Hfn : h_fn p = Some fn.
  Lemma fn_ok : forall m, octets m -> N.of_nat (length m) < 2 ^ 61 -> fn m = Done (H m) /\ length (H m) = hs /\ octets (H m).
  Proof. destruct I as (_ & _ & _ & _ & f & E & X). rewrite Hfn in E. injection E as <-. exact X. Qed.
  Lemma hs_pos : (0 < hs <= 1024)%nat. Proof. destruct I as (_ & _ & A & C & _). lia. Qed.
  Lemma oaep_ptrs : oaep_hash p = (fn, hs). Proof. destruct I as (_ & E & _). unfold oaep_hash. rewrite Hfn, E. reflexivity. Qed.
  Lemma pss_ptrs : pss_hash p = (fn, hs). Proof. destruct I as (_ & E & _). unfold pss_hash. rewrite Hfn, E. reflexivity. Qed.

  Section MGF.
    Variable seed : list N.
    Variable len : nat.
    Hypothesis Os : octets seed.
    Hypothesis Ls : N.of_nat (length seed) < 2 ^ 60.
    Hypothesis Ll : N.of_nat len < 2 ^ 32.
    Let blk (c : nat) : list N := H (seed ++ be_bytes 4 (N.of_nat c)).
    Let T (n : nat) : list N := concat (map blk (seq 0 n)).
    Lemma blk_ok : forall c, length (blk c) = hs /\ octets (blk c).
    Proof.
      intro c. apply fn_ok; [apply octets_app; [exact Os|apply octets_bytes, be_bytes_bytes]|]. rewrite app_length, be_bytes_length. clear - Ls. lia.
    Qed.
    Lemma T_S : forall n, T (S n) = T n ++ blk n.
    Proof. intro n. unfold T. rewrite seq_S, map_app, concat_app. cbn [map concat]. rewrite app_nil_r. reflexivity. Qed.
    Lemma T_len : forall n, length (T n) = (n * hs)%nat.
    Proof. induction n as [|n IH]; [reflexivity|]. rewrite T_S, app_length, IH, (proj1 (blk_ok n)). clear. lia. Qed.
    Lemma T_octets : forall n, octets (T n).
    Proof. induction n as [|n IH]; [constructor|]. rewrite T_S. apply octets_app; [exact IH|apply blk_ok]. Qed.
    Lemma T_more : forall n k, (len <= n * hs)%nat -> firstn len (T (n + k)) = firstn len (T n).
    Proof.
      intros n k L. induction k as [|k IH]; [rewrite Nat.add_0_r; reflexivity|]. rewrite Nat.add_succ_r, T_S, firstn_app, T_len.
      replace (len - (n + k) * hs)%nat with 0%nat by (clear - L; nia). rewrite firstn_O, app_nil_r. exact IH.
    Qed.
    Lemma T_any : forall n k, (len <= n * hs)%nat -> (len <= k * hs)%nat -> firstn len (T n) = firstn len (T k).
    Proof.
      intros n k L M. destruct (Nat.le_ge_cases n k) as [X|X]; [replace k with (n + (k - n))%nat by (clear - X; lia); symmetry|replace n with (k + (n - k))%nat by (clear - X; lia)]; apply T_more; assumption.
    Qed.
    Lemma enough : (len <= (len + hs - 1) / hs * hs)%nat.
    Proof. clear Ll Ls Os. pose proof hs_pos as P. pose proof (Nat.div_mod (len + hs - 1) hs ltac:(lia)) as D. pose proof (Nat.mod_upper_bound (len + hs - 1) hs ltac:(lia)). nia. Qed.
    Lemma mgf_loop_ok : forall fuel n, (len - n * hs <= fuel)%nat ->
      mgf_loop fuel fn seed len (N.of_nat n) (firstn len (T n)) = Done (firstn len (T ((len + hs - 1) / hs))).
    Proof.
      pose proof hs_pos as P. induction fuel as [|fuel IH]; intros n F.
      - cbn [mgf_loop]. rewrite firstn_length, T_len. replace (Nat.ltb (Nat.min len (n * hs)) len) with false by (symmetry; apply Nat.ltb_ge; lia).
        f_equal. apply T_any; [lia|apply enough].
      - cbn [mgf_loop]. rewrite firstn_length, T_len. destruct (Nat.ltb_spec (Nat.min len (n * hs)) len) as [L|L].
        + assert (N.of_nat n < 2 ^ 32) as Hn by (clear - L Ll P; nia). rewrite (i2osp_bytes _ Hn).
          destruct (fn_ok (seed ++ be_bytes 4 (N.of_nat n))) as (E & _). { apply octets_app; [exact Os|apply octets_bytes, be_bytes_bytes]. } { rewrite app_length, be_bytes_length. clear - Ls. lia. }
          rewrite E. cbn [obind].
          replace (Nat.min len (n * hs)) with (n * hs)%nat by lia.
          replace (firstn len (T n) ++ firstn (len - n * hs) (H (seed ++ be_bytes 4 (N.of_nat n)))) with (firstn len (T (S n))) by (rewrite T_S, firstn_app, T_len; reflexivity).
          replace (add32 (N.of_nat n) 1) with (N.of_nat (S n)); [apply IH; lia|]. unfold addw. rewrite N.mod_small; [lia|]. assert (N.of_nat n < N.of_nat len) as Z by (clear - L P; nia). clear - Z Ll. lia.
        + f_equal. apply T_any; [lia|apply enough].
    Qed.
    Lemma mgf_ok : padding_mgf fn seed len = Done (MGF1 H hs seed len).
    Proof. unfold padding_mgf. change 0 with (N.of_nat 0). pose proof (mgf_loop_ok len 0 ltac:(lia)) as X. unfold T at 1 in X. cbn [seq map concat] in X. rewrite firstn_nil in X. exact X. Qed.
    Lemma mgf_len : length (MGF1 H hs seed len) = len.
    Proof. change (MGF1 H hs seed len) with (firstn len (T ((len + hs - 1) / hs))). rewrite firstn_length, T_len. pose proof enough as E. clear - E. lia. Qed.
    Lemma mgf_octets : octets (MGF1 H hs seed len).
    Proof. apply octets_firstn'. exact (T_octets ((len + hs - 1) / hs)). Qed.
  End MGF.

  (* ---- OAEP *)
  Section OAEP.
    Variable k : nat.
    Hypothesis Lk : N.of_nat k < 2 ^ 32.
    Hypothesis Hk : (2 * hs + 1 <= k)%nat.
    Let n : nat := (k - hs - 1)%nat.
    Definition seed_of (buf : list N) : list N := xorl (MGF1 H hs (skipn (S hs) buf) hs) (firstn hs (skipn 1 buf)).
    Definition db_of (buf : list N) : list N := xorl (skipn (S hs) buf) (MGF1 H hs (seed_of buf) n).
    Lemma small : forall m, (m <= k)%nat -> N.of_nat m < 2 ^ 32. Proof. intros. clear - H0 Lk. lia. Qed.
    Lemma small60 : forall m, (m <= k)%nat -> N.of_nat m < 2 ^ 60. Proof. intros. clear - H0 Lk. lia. Qed.
    Lemma mask_parts : forall DB seed, octets DB -> length DB = n -> octets seed -> length seed = hs ->
      exists ms md, OAEP_mask H hs k DB seed = 0 :: ms ++ md /\ md = xorl DB (MGF1 H hs seed n) /\ ms = xorl seed (MGF1 H hs md hs) /\ length ms = hs /\ length md = n /\ octets ms /\ octets md.
    Proof.
      intros DB seed OD LD OS LS. pose proof (hs_pos) as P. exists (xorl seed (MGF1 H hs (xorl DB (MGF1 H hs seed n)) hs)), (xorl DB (MGF1 H hs seed n)).
      assert (length (xorl DB (MGF1 H hs seed n)) = n) as L1. { rewrite xorl_length, mgf_len; [lia|exact OS|rewrite LS; apply small60; lia]. }
      assert (octets (xorl DB (MGF1 H hs seed n))) as O1. { apply octets_xorl; [exact OD|]. apply mgf_octets; [exact OS|rewrite LS; apply small60; lia]. }
      split; [reflexivity|]. split; [reflexivity|]. split; [reflexivity|]. split; [|split; [exact L1|split; [|exact O1]]].
      - rewrite xorl_length, mgf_len; [lia|exact O1|rewrite L1; apply small60; unfold n; lia].
      - apply octets_xorl; [exact OS|]. apply mgf_octets; [exact O1|rewrite L1; apply small60; unfold n; lia].
    Qed.
    Lemma unmask : forall DB seed, octets DB -> length DB = n -> octets seed -> length seed = hs -> db_of (OAEP_mask H hs k DB seed) = DB.
    Proof.
      intros DB seed OD LD OS LS. destruct (mask_parts DB seed OD LD OS LS) as (ms & md & E & E1 & E2 & L1 & L2 & O1 & O2).
      unfold db_of, seed_of. rewrite E. replace (skipn (S hs) (0 :: ms ++ md)) with md by (cbn [skipn]; symmetry; apply skipn_exact; exact L1).
      cbn [skipn]. rewrite (firstn_exact _ _ _ hs L1). rewrite (xorl_comm (MGF1 H hs md hs) ms).
      assert (xorl ms (MGF1 H hs md hs) = seed) as ->. { rewrite E2 at 1. apply xorl_involutive. rewrite mgf_len; [lia|exact O2|rewrite L2; apply small60; unfold n; lia]. }
      rewrite E1. apply xorl_involutive. rewrite mgf_len; [lia|exact OS|rewrite LS; apply small60; lia].
    Qed.
    Lemma mask_unmask : forall rest, octets rest -> length rest = (k - 1)%nat ->
      OAEP_mask H hs k (db_of (0 :: rest)) (seed_of (0 :: rest)) = 0 :: rest /\ length (seed_of (0 :: rest)) = hs /\ octets (seed_of (0 :: rest)) /\ length (db_of (0 :: rest)) = n /\ octets (db_of (0 :: rest)).
    Proof.
      intros rest O L. unfold db_of. set (seed := seed_of (0 :: rest)). unfold seed_of in seed. cbn [skipn] in *.
      set (ms := firstn hs rest) in *. set (md := skipn hs rest) in *. assert (rest = ms ++ md) as R by (symmetry; apply firstn_skipn).
      assert (length ms = hs) as L1 by (unfold ms; rewrite firstn_length; lia). assert (length md = n) as L2 by (unfold md, n; rewrite skipn_length; lia).
      assert (octets ms) as O1 by (apply octets_firstn; exact O). assert (octets md) as O2 by (apply octets_skipn; exact O).
      assert (N.of_nat (length md) < 2 ^ 60) as S2 by (rewrite L2; apply small60; unfold n; lia).
      assert (length seed = hs) as L3. { unfold seed. rewrite xorl_length, mgf_len; [lia|exact O2|exact S2]. }
      assert (octets seed) as O3. { unfold seed. apply octets_xorl; [|exact O1]. apply mgf_octets; [exact O2|exact S2]. }
      assert (N.of_nat (length seed) < 2 ^ 60) as S3 by (rewrite L3; apply small60; lia).
      split; [|split; [exact L3|split; [exact O3|split]]].
      - unfold OAEP_mask. fold n. rewrite xorl_involutive by (rewrite mgf_len; [lia|exact O3|exact S3]).
        replace (xorl seed (MGF1 H hs md hs)) with ms; [cbn [app]; rewrite R; reflexivity|]. unfold seed. rewrite (xorl_comm (MGF1 H hs md hs)). symmetry. apply xorl_involutive. rewrite mgf_len; [lia|exact O2|exact S2].
      - rewrite xorl_length, mgf_len; [lia|exact O3|exact S3].
      - apply octets_xorl; [exact O2|]. apply mgf_octets; [exact O3|exact S3].
    Qed.
    (* what the removal does with the unmasked block *)
    Definition parse (L : list N) (db : list N) : outcome (option (list N)) :=
      if eqb_list (firstn hs db) (H L) then
        let tail := skipn hs db in
        match skipn (zero_run tail) tail with
        | [] => UB
        | x :: m => if x =? 1 then (if Nat.eqb (zero_run tail + length m + 2 * hs + 2) k then Done (Some m) else Done None) else Done None
        end
      else Done None.
    Definition the_label (l : option (list N)) : list N := match l with Some l => l | None => [] end.
    Lemma drop_ok : forall label rest, octets (the_label label) -> N.of_nat (length (the_label label)) < 2 ^ 60 -> octets rest -> length rest = (k - 1)%nat ->
      drop_oaep p (Some (0 :: rest)) k label = parse (the_label label) (db_of (0 :: rest)).
    Proof.
      intros label rest OL LL O L. unfold drop_oaep. rewrite oaep_ptrs. change (negb (0 =? 0)) with false. cbv iota. replace (hs + 1)%nat with (S hs) by lia.
      destruct (mask_unmask rest O L) as (_ & L3 & O3 & L4 & O4).
      replace ((Nat.ltb (length (0 :: rest)) (2 * hs + 1) || Nat.ltb k (S hs) || Nat.ltb (length (0 :: rest)) k)%bool) with false.
      2:{ symmetry. cbn [length]. rewrite !Bool.orb_false_iff. repeat split; apply Nat.ltb_ge; lia. }
      assert (length (skipn (S hs) (0 :: rest)) = n) as L2 by (rewrite skipn_length; cbn [length]; unfold n; lia).
      assert (octets (skipn (S hs) (0 :: rest))) as O2. { apply octets_skipn. constructor; [reflexivity|exact O]. }
      replace (firstn (k - hs - 1) (skipn (S hs) (0 :: rest))) with (skipn (S hs) (0 :: rest)) by (symmetry; apply firstn_all2; rewrite L2; unfold n; lia).
      rewrite mgf_ok; [|exact O2|rewrite L2; apply small60; unfold n; lia|apply small; lia]. cbn [obind]. fold (seed_of (0 :: rest)).
      replace (length (0%N :: rest) - hs - 1)%nat with n by (cbn [length]; unfold n; lia).
      rewrite mgf_ok; [|exact O3|rewrite L3; apply small60; lia|apply small; unfold n; lia]. cbn [obind]. fold (db_of (0 :: rest)).
      fold (the_label label). destruct (fn_ok (the_label label) OL) as (E & Lh & _). { clear - LL. lia. } rewrite E. cbn [obind]. rewrite Lh, Nat.eqb_refl. cbn [negb]. unfold parse.
      destruct (eqb_list (firstn hs (db_of (0 :: rest))) (H (the_label label))); cbn [negb]; [|reflexivity]. cbv zeta.
      destruct (skipn (zero_run (skipn hs (db_of (0 :: rest)))) (skipn hs (db_of (0 :: rest)))) as [|x m]; [reflexivity|]. destruct (x =? 1); cbn [negb]; [|reflexivity].
      destruct (Nat.eqb _ k); reflexivity.
    Qed.
    Lemma zero_run_split : forall l, l = repeat 0 (zero_run l) ++ skipn (zero_run l) l.
    Proof. induction l as [|x l IH]; [reflexivity|]. cbn [zero_run]. destruct (N.eqb_spec x 0) as [->|Ne]; [|reflexivity]. cbn [repeat skipn app]. f_equal. exact IH. Qed.
    Lemma zero_run_one : forall z m, zero_run (repeat 0 z ++ 1 :: m) = z.
    Proof. induction z as [|z IH]; intro m; [reflexivity|]. cbn [repeat app zero_run]. change (0 =? 0) with true. cbv iota. rewrite IH. reflexivity. Qed.
    Lemma zero_run_all : forall z, zero_run (repeat 0 z) = z.
    Proof. induction z as [|z IH]; [reflexivity|]. cbn [repeat zero_run]. change (0 =? 0) with true. cbv iota. rewrite IH. reflexivity. Qed.
    Lemma parse_some : forall L db m, length (H L) = hs -> length db = n -> (parse L db = Done (Some m) <-> (length m + 2 * hs + 2 <= k)%nat /\ db = OAEP_DB H hs k L m).
    Proof.
      clear Lk Hk. intros L db m Lh Ld. unfold parse. split.
      - destruct (eqb_list (firstn hs db) (H L)) eqn:E1; [|discriminate]. apply eqb_list_eq in E1. cbv zeta. pose proof (zero_run_split (skipn hs db)) as Z.
        destruct (skipn (zero_run (skipn hs db)) (skipn hs db)) as [|x m'] eqn:E2; [discriminate|]. destruct (N.eqb_spec x 1) as [->|]; [|discriminate]. destruct (Nat.eqb_spec (zero_run (skipn hs db) + length m' + 2 * hs + 2) k) as [E3|]; [|discriminate].
        intro X. injection X as ->. split; [lia|]. unfold OAEP_DB. rewrite <- E1. rewrite <- (firstn_skipn hs db) at 1. f_equal. rewrite Z at 1. f_equal. f_equal. lia.
      - intros [Lm ->]. unfold OAEP_DB. rewrite (firstn_exact _ _ _ hs Lh). rewrite (proj2 (eqb_list_eq _ _) eq_refl). cbv zeta. rewrite (skipn_exact _ _ _ hs Lh). cbn [app]. rewrite zero_run_one.
        rewrite (skipn_exact _ (repeat 0 _) (1 :: m) _ (repeat_length _ _)). change (1 =? 1) with true. cbv iota. rewrite (proj2 (Nat.eqb_eq _ k)); [reflexivity|lia].
    Qed.
    Lemma DB_len : forall L m, length (H L) = hs -> (length m + 2 * hs + 2 <= k)%nat -> length (OAEP_DB H hs k L m) = n.
    Proof. intros L m Lh Lm. unfold OAEP_DB. rewrite !app_length, repeat_length, Lh. cbn [length]. unfold n. clear - Lm. lia. Qed.
    Lemma DB_octets : forall L m, octets (H L) -> octets m -> octets (OAEP_DB H hs k L m).
    Proof. intros L m Oh Om. unfold OAEP_DB. apply octets_app; [exact Oh|]. apply octets_app; [apply octets_zeros|]. apply octets_app; [constructor; [reflexivity|constructor]|exact Om]. Qed.
    Lemma apply_ok : forall mz label seed m, octets (the_label label) -> N.of_nat (length (the_label label)) < 2 ^ 60 -> octets seed -> length seed = hs -> octets m -> m <> [] ->
      (length m + 2 * hs + 2 <= k)%nat -> mz = true \/ (length m + 2 * hs + 2 < k)%nat ->
      apply_oaep mz p (Some m) k label seed = Done (Some (OAEP H hs k (the_label label) m seed)).
    Proof.
      intros mz label seed m OL LL OS LS Om Nm Lm Mz. unfold apply_oaep. destruct m as [|b m']; [contradiction|]. set (m := b :: m') in *. rewrite oaep_ptrs.
      replace (Nat.ltb k (length m)) with false by (symmetry; apply Nat.ltb_ge; lia). replace (Nat.ltb k hs) with false by (symmetry; apply Nat.ltb_ge; lia).
      replace (Nat.ltb k (length m + 2 * hs + 2)) with false by (symmetry; apply Nat.ltb_ge; lia). cbv zeta.
      replace (negb mz && Nat.eqb (k - length m - 2 * hs - 2) 0)%bool with false.
      2:{ symmetry. destruct Mz as [->|X]; [reflexivity|]. apply Bool.andb_false_intro2. apply Nat.eqb_neq. lia. }
      fold (the_label label). destruct (fn_ok (the_label label) OL) as (E & Lh & Oh). { clear - LL. lia. } rewrite E. cbn [obind]. rewrite Lh, Nat.eqb_refl. cbn [negb].
      fold n. change (H (the_label label) ++ repeat 0 (k - length m - 2 * hs - 2) ++ [1] ++ m) with (OAEP_DB H hs k (the_label label) m).
      destruct (mask_parts (OAEP_DB H hs k (the_label label) m) seed (DB_octets _ _ Oh Om) (DB_len _ _ Lh Lm) OS LS) as (ms & md & E0 & E1 & E2 & L1 & L2 & O1 & O2).
      rewrite mgf_ok; [|exact OS|rewrite LS; apply small60; lia|apply small; unfold n; lia]. cbn [obind]. rewrite <- E1.
      rewrite mgf_ok; [|exact O2|rewrite L2; apply small60; unfold n; lia|apply small; lia]. cbn [obind]. rewrite <- E2. unfold OAEP. rewrite E0. reflexivity.
    Qed.
  End OAEP.

  (* ---- PSS *)
  Definition cleared (emLen sLen : nat) : N := if Nat.ltb (hs + sLen + 2) emLen then 8 else 0.
  Lemma clear0 : forall l, octets l -> clear 0 l = l.
  Proof. intros [|x l] O; [reflexivity|]. cbn [clear]. inversion O; subst. f_equal. apply N.mod_small. exact H2. Qed.
  Lemma clear8 : forall l, l <> [] -> clear 8 l = upd l 0 0.
  Proof. intros [|x l] Ne; [contradiction|]. cbn [clear]. change (2 ^ (8 - 8)) with 1. rewrite N.mod_1_r. reflexivity. Qed.
  Section PSS.
    Variables emLen sLen : nat.
    Hypothesis Le : N.of_nat emLen < 2 ^ 32.
    Hypothesis Hl : (hs + sLen + 2 <= emLen)%nat.
    Let ps : nat := (emLen - sLen - hs - 2)%nat.
    Let n : nat := (emLen - hs - 1)%nat.
    Lemma cleared_ps : cleared emLen sLen = if Nat.ltb 0 ps then 8 else 0.
    Proof. unfold cleared, ps. destruct (Nat.ltb_spec (hs + sLen + 2) emLen), (Nat.ltb_spec 0 (emLen - sLen - hs - 2)); try reflexivity; lia. Qed.
    Lemma mp_ok : forall m salt, octets m -> N.of_nat (length m) < 2 ^ 60 -> octets salt -> length salt = sLen -> fn m = Done (H m) /\ length (H m) = hs /\
      fn (repeat 0 8 ++ H m ++ salt) = Done (H (repeat 0 8 ++ H m ++ salt)) /\ length (H (repeat 0 8 ++ H m ++ salt)) = hs /\ octets (H (repeat 0 8 ++ H m ++ salt)).
    Proof.
      intros m salt Om Lm Os Ls. destruct (fn_ok m Om ltac:(clear - Lm; lia)) as (E & L & O). split; [exact E|]. split; [exact L|].
      apply fn_ok; [apply octets_app; [apply octets_zeros|apply octets_app; [exact O|exact Os]]|]. rewrite !app_length, repeat_length, L, Ls. clear - Le Hl. lia.
    Qed.
    Lemma encode_ok : forall m salt, octets m -> length m = emLen -> octets salt -> length salt = sLen ->
      pss_encode p (Some m) salt = Done (Some (PSS H hs (cleared emLen sLen) emLen m salt)).
    Proof.
      intros m salt Om Lm Os Ls. unfold pss_encode. rewrite pss_ptrs, Lm, Ls. replace (Nat.ltb emLen (hs + sLen + 2)) with false by (symmetry; apply Nat.ltb_ge; lia).
      destruct (mp_ok m salt Om ltac:(rewrite Lm; clear - Le; lia) Os Ls) as (E1 & L1 & E2 & L2 & O2).
      rewrite E1. cbn [obind]. rewrite L1, Nat.eqb_refl. cbn [negb]. rewrite E2. cbn [obind]. rewrite L2, Nat.eqb_refl. cbn [negb]. cbv zeta.
      unfold PSS. rewrite Ls. set (Hd := H (repeat 0 8 ++ H m ++ salt)) in *. fold ps n.
      assert (N.of_nat (length Hd) < 2 ^ 60) as S2 by (rewrite L2; clear - Le Hl; lia).
      rewrite mgf_ok; [|exact O2|exact S2|unfold n; clear - Le; lia]. cbn [obind]. do 3 f_equal. rewrite (xorl_comm (MGF1 H hs Hd n)). rewrite cleared_ps.
      destruct (Nat.ltb_spec 0 ps) as [P|P].
      - symmetry. apply clear8. intro X. apply (f_equal (@length N)) in X. rewrite xorl_length, !app_length, repeat_length, mgf_len in X by assumption. cbn [length] in X. unfold n in X. lia.
      - symmetry. apply clear0. apply octets_xorl; [apply octets_app; [apply octets_zeros|apply octets_app; [constructor; [reflexivity|constructor]|exact Os]]|]. apply mgf_octets; assumption.
    Qed.
    Lemma forallb_zero : forall l, forallb (fun x => x =? 0) l = true <-> l = repeat 0 (length l).
    Proof.
      induction l as [|x l IH]; [split; reflexivity|]. cbn [forallb length repeat]. rewrite Bool.andb_true_iff, IH, N.eqb_eq. split; [intros [-> E]; f_equal; exact E|]. intro E. injection E as -> E. split; [reflexivity|exact E].
    Qed.
    (* db after the unmasking is zeros, one, salt exactly if the masked block is the masking of that *)
    Lemma unmask_iff : forall masked mask DB, octets masked -> octets mask -> octets DB -> length masked = n -> length mask = n -> length DB = n -> ((0 < ps)%nat -> nth 0 DB 0 = 0) ->
      (((0 < ps)%nat -> nth 0 masked 0 = 0) /\ (if Nat.ltb 0 ps then upd (xorl mask masked) 0 0 else xorl mask masked) = DB) <-> masked = clear (cleared emLen sLen) (xorl DB mask).
    Proof.
      intros masked mask DB O1 O2 O3 L1 L2 L3 Z. rewrite cleared_ps. destruct (Nat.ltb_spec 0 ps) as [P|P].
      - destruct masked as [|x masked]; [unfold n in L1; cbn in L1; lia|]. destruct mask as [|y mask]; [unfold n in L2; cbn in L2; lia|]. destruct DB as [|z DB]; [unfold n in L3; cbn in L3; lia|].
        specialize (Z P). cbn [nth] in Z. subst z. cbn [xorl clear nth]. change (2 ^ (8 - 8)) with 1. rewrite N.mod_1_r. unfold upd. cbn [firstn skipn app]. cbn [length] in L1, L2, L3. split.
        + intros [X Y]. rewrite (X P). f_equal. injection Y as Y. rewrite <- Y. rewrite (xorl_comm mask masked). symmetry. apply xorl_involutive. lia.
        + intro E. injection E as -> E. split; [reflexivity|]. f_equal. rewrite E. rewrite xorl_comm. apply xorl_involutive. lia.
      - split.
        + intros [_ <-]. rewrite clear0; [|apply octets_xorl; [apply octets_xorl; assumption|assumption]]. rewrite (xorl_comm mask). symmetry. apply xorl_involutive. lia.
        + intro E. split; [lia|]. rewrite clear0 in E by (apply octets_xorl; assumption). rewrite E, xorl_comm. apply xorl_involutive. lia.
    Qed.
    Lemma clear_len : forall z l, length (clear z l) = length l. Proof. intros z [|x l]; reflexivity. Qed.
    Lemma split_at : forall (l : list N) i, (i < length l)%nat -> l = firstn i l ++ nth i l 0 :: skipn (S i) l.
    Proof.
      induction l as [|x l IH]; intros i L; [cbn in L; lia|]. destruct i as [|i]; [reflexivity|]. cbn [firstn nth skipn app]. f_equal. apply IH. cbn in L. lia.
    Qed.
    Lemma upd0 : forall l, octets l -> octets (upd l 0 0).
    Proof. intros [|x l] O; [constructor|]. inversion O; subst. constructor; [reflexivity|assumption]. Qed.
    Lemma verify_ok : forall m em k, octets m -> m <> [] -> N.of_nat (length m) < 2 ^ 60 -> octets em -> length em = emLen -> (0 < k)%nat ->
      exists b, pss_verify p m em k sLen = Done b /\ (b = true <-> exists salt, octets salt /\ length salt = sLen /\ em = PSS H hs (cleared emLen sLen) emLen m salt).
    Proof.
      intros m em k Om Nm Lm Oe Lem Hk. pose proof hs_pos as P.
      set (masked := firstn n em). set (Hd := firstn hs (skipn n em)). set (mask := MGF1 H hs Hd n).
      set (db := if Nat.ltb 0 ps then upd (xorl mask masked) 0 0 else xorl mask masked). set (salt := skipn (n - sLen) db).
      assert (length masked = n) as L1 by (unfold masked; rewrite firstn_length; unfold n; lia). assert (octets masked) as O1 by (apply octets_firstn; exact Oe).
      assert (length Hd = hs) as L2 by (unfold Hd; rewrite firstn_length, skipn_length; unfold n; lia). assert (octets Hd) as O2 by (apply octets_firstn, octets_skipn; exact Oe).
      assert (N.of_nat (length Hd) < 2 ^ 60) as S2 by (rewrite L2; clear - Le Hl; lia). assert (N.of_nat n < 2 ^ 32) as Sn by (unfold n; clear - Le; lia).
      assert (length mask = n) as L3 by (apply mgf_len; assumption). assert (octets mask) as O3 by (apply mgf_octets; assumption).
      assert (length (xorl mask masked) = n) as L4 by (rewrite xorl_length; lia). assert (octets (xorl mask masked)) as O4 by (apply octets_xorl; assumption).
      assert (length db = n /\ octets db) as [L5 O5].
      { unfold db. destruct (Nat.ltb 0 ps); [|split; assumption]. split; [rewrite upd_length; exact L4|apply upd0; exact O4]. }
      assert (length salt = sLen) as L6 by (unfold salt; rewrite skipn_length, L5; unfold n; lia). assert (octets salt) as O6 by (apply octets_skipn; exact O5).
      destruct (mp_ok m salt Om Lm O6 L6) as (E1 & LH & E2 & LH2 & OH2).
      exists ((nth (emLen - 1) em 0 =? 0xBC) && negb (Nat.ltb 0 ps && negb (nth 0 masked 0 =? 0)) && ((nth ps db 0 =? 1) && forallb (fun x => x =? 0) (firstn ps db) && eqb_list Hd (H (repeat 0 8 ++ H m ++ salt))))%bool. split.
      - unfold pss_verify. rewrite pss_ptrs, Lem.
        replace (Nat.eqb (length m) 0 || Nat.eqb emLen 0 || Nat.eqb k 0)%bool with false. 2:{ symmetry. destruct m; [contradiction|]. cbn [length]. rewrite !Bool.orb_false_iff. repeat split; apply Nat.eqb_neq; lia. }
        replace (Nat.ltb emLen (hs + sLen + 2)) with false by (symmetry; apply Nat.ltb_ge; lia).
        destruct (nth (emLen - 1) em 0 =? 0xBC); cbn [negb andb]; [|reflexivity]. rewrite E1. cbn [obind]. rewrite LH, Nat.eqb_refl. cbn [negb]. cbv zeta. fold n. fold masked Hd. fold ps.
        destruct (Nat.ltb 0 ps && negb (nth 0 masked 0 =? 0))%bool; cbn [negb andb]; [reflexivity|].
        rewrite mgf_ok by assumption. cbn [obind]. fold mask. fold db. destruct (nth ps db 0 =? 1); cbn [negb andb]; [|reflexivity]. destruct (forallb _ (firstn ps db)); cbn [negb andb]; [|reflexivity].
        rewrite L5. fold salt. rewrite E2. cbn [obind]. rewrite LH2, Nat.eqb_refl. reflexivity.
      - rewrite !Bool.andb_true_iff, N.eqb_eq, N.eqb_eq, eqb_list_eq.
        assert (forall s, octets s -> length s = sLen -> octets (repeat 0 ps ++ [1] ++ s) /\ length (repeat 0 ps ++ [1] ++ s) = n /\ ((0 < ps)%nat -> nth 0 (repeat 0 ps ++ [1] ++ s) 0 = 0)) as DBok.
        { intros s Os Ls. split; [apply octets_app; [apply octets_zeros|apply octets_app; [constructor; [reflexivity|constructor]|exact Os]]|]. split; [rewrite !app_length, repeat_length, Ls; cbn [length]; unfold ps, n; lia|]. intro Q. destruct ps; [lia|reflexivity]. }
        assert (em = masked ++ Hd ++ [nth (emLen - 1) em 0]) as Ee.
        { rewrite <- (firstn_skipn n em) at 1. fold masked. f_equal. rewrite <- (firstn_skipn hs (skipn n em)) at 1. fold Hd. f_equal. rewrite skipn_add. replace (n + hs)%nat with (emLen - 1)%nat by (unfold n; lia).
          rewrite (split_at em (emLen - 1)) at 1 by lia. rewrite skipn_exact by (rewrite firstn_length; lia). f_equal. apply skipn_all2. lia. }
        assert ((negb (Nat.ltb 0 ps && negb (nth 0 masked 0 =? 0)) = true) <-> ((0 < ps)%nat -> nth 0 masked 0 = 0)) as C.
        { destruct (Nat.ltb_spec 0 ps) as [Q|Q]; cbn [andb]; [|split; [lia|reflexivity]]. rewrite Bool.negb_involutive, N.eqb_eq. split; [intros X _; exact X|intro X; exact (X Q)]. }
        rewrite C. split.
        + intros ((B1 & B2) & (B3 & B4) & B5). exists salt. split; [exact O6|]. split; [exact L6|]. apply forallb_zero in B4.
          destruct (DBok salt O6 L6) as (D1 & D2 & D3).
          assert (db = repeat 0 ps ++ [1] ++ salt) as Ed. { rewrite (split_at db ps) at 1 by (rewrite L5; unfold ps, n; lia). rewrite B3, B4, firstn_length, L5. replace (Nat.min ps n) with ps by (unfold ps, n; lia). cbn [app]. unfold salt. replace (n - sLen)%nat with (S ps) by (unfold ps, n; lia). reflexivity. }
          pose proof (proj1 (unmask_iff masked mask _ O1 O3 D1 L1 L3 D2 D3) (conj B2 Ed)) as M. unfold PSS. rewrite L6. fold ps n. rewrite <- B5. fold mask. rewrite <- M, <- B1. exact Ee.
        + intros (s & Os & Ls & E). destruct (DBok s Os Ls) as (D1 & D2 & D3). destruct (mp_ok m s Om Lm Os Ls) as (_ & _ & _ & LH3 & OH3).
          unfold PSS in E. rewrite Ls in E. fold ps n in E. set (Hd' := H (repeat 0 8 ++ H m ++ s)) in *. set (mk := clear (cleared emLen sLen) (xorl (repeat 0 ps ++ [1] ++ s) (MGF1 H hs Hd' n))) in *.
          assert (length mk = n) as Lk'. { unfold mk. rewrite clear_len, xorl_length, mgf_len, D2; [lia|exact OH3|rewrite LH3; clear - Le Hl; lia]. }
          assert (masked = mk) as M1 by (unfold masked; rewrite E; apply firstn_exact; exact Lk').
          assert (Hd = Hd') as M2 by (unfold Hd; rewrite E, (skipn_exact _ _ _ n Lk'); apply firstn_exact; exact LH3).
          assert (nth (emLen - 1) em 0 = 0xBC) as M3. { rewrite Ee, M1, M2 in E. do 2 apply app_inv_head in E. injection E as E. exact E. }
          assert (masked = clear (cleared emLen sLen) (xorl (repeat 0 ps ++ [1] ++ s) mask)) as M4 by (unfold mask; rewrite M2, M1; reflexivity).
          destruct (proj2 (unmask_iff masked mask _ O1 O3 D1 L1 L3 D2 D3) M4) as [B2 Ed]. fold db in Ed.
          assert (salt = s) as M5. { unfold salt. rewrite Ed. replace (n - sLen)%nat with (ps + 1)%nat by (unfold ps, n; lia). rewrite <- skipn_add. rewrite (skipn_exact _ (repeat 0 ps) _ ps (repeat_length _ _)). reflexivity. }
          split; [split; [exact M3|exact B2]|]. split; [split|].
          * rewrite Ed, app_nth2 by (rewrite repeat_length; lia). rewrite repeat_length, Nat.sub_diag. reflexivity.
          * apply forallb_zero. rewrite Ed, (firstn_exact _ (repeat 0 ps) _ ps (repeat_length _ _)), repeat_length. reflexivity.
          * rewrite M2, M5. reflexivity.
    Qed.
  End PSS.
End Hash.
