(* Lemmas behind MacProps.v. *)
From Verif Require Import Words EncSpec TaskModel CipherBase CipherLib StreamProofs HashModel HashSpec HashProofs HashProofs2 HashTables HashProofs3 HashProofs4 MacModel MacSpec.
From Coq Require Import PeanoNat.
Open Scope N_scope.

(* p are the functions of a hash that computes H, with blocks of B bytes and digests of hs bytes *)
Definition implements (p : hash_ptrs) (H : list N -> list N) (B hs : nat) : Prop :=
  h_input_size p = Some B /\ h_size p = Some hs /\ (0 < hs <= B)%nat /\ (B <= 1024)%nat /\
  exists fn, h_fn p = Some fn /\
  forall m, octets m -> N.of_nat (length m) < 2 ^ 61 -> fn m = Done (H m) /\ length (H m) = hs /\ octets (H m).
Definition text_ok (m : list N) : Prop := octets m /\ N.of_nat (length m) < 2 ^ 60.

(* ---- the hashes of HashModel.v *)
Definition ptrs (h : hash_params) (B hs : nat) : hash_ptrs := mkPtrs (Some (hash_fn h)) (Some B) (Some hs).
Definition digest (h : hash_params) (m : list N) : list N := match hash_fn h m with Done d => d | UB => [] end.
Lemma octets_app : forall a b, octets a -> octets b -> octets (a ++ b).
Proof. intros a b Ha Hb. apply Forall_app. split; assumption. Qed.
Lemma octets_concat : forall l, (forall x, In x l -> octets x) -> octets (concat l).
Proof.
  induction l as [|x l IH]; intro H; [constructor|]. cbn [concat]. apply octets_app; [apply H; left; reflexivity|]. apply IH. intros y Hy. apply H. right. exact Hy.
Qed.
Lemma be_string_len : forall wb l, length (be_string wb l) = (wb * length l)%nat /\ octets (be_string wb l).
Proof.
  intros wb l. unfold be_string. split.
  - induction l as [|x l IH]; cbn [map concat length]; [lia|]. rewrite app_length, IH, be_bytes_length. lia.
  - apply octets_concat. intros x Hx. apply in_map_iff in Hx. destruct Hx as [y [<- _]]. apply (proj2 (octets_bytes _)), be_bytes_bytes.
Qed.
Lemma le_string_len : forall wb l, length (le_string wb l) = (wb * length l)%nat /\ octets (le_string wb l).
Proof.
  intros wb l. unfold le_string. split.
  - induction l as [|x l IH]; cbn [map concat length]; [lia|]. rewrite app_length, IH, le_bytes_length. lia.
  - apply octets_concat. intros x Hx. apply in_map_iff in Hx. destruct Hx as [y [<- _]]. apply (proj2 (octets_bytes _)), le_bytes_bytes.
Qed.
Lemma ok_digest : forall h hs, (forall m, octets m -> N.of_nat (length m) < 2 ^ 61 ->
    exists d, hash_processor h false (Some m) (N.of_nat (length m)) = Done (ok d) /\ length d = hs /\ octets d) ->
  forall B, (0 < hs <= B)%nat -> (B <= 1024)%nat -> implements (ptrs h B hs) (digest h) B hs.
Proof.
  intros h hs A B Hs HB. split; [reflexivity|]. split; [reflexivity|]. split; [exact Hs|]. split; [exact HB|]. exists (hash_fn h). split; [reflexivity|].
  intros m Hm Hl. destruct (A m Hm Hl) as (d & E & L & O). unfold digest, hash_fn. rewrite E. cbn [obind ok hr_out]. auto.
Qed.
Lemma sized_digest : forall h bs field block init out k hs, made_of h bs field block init out -> (9 <= bs)%nat ->
  (forall t, length (field t) = 8%nat) -> length init = k -> (forall st b, length st = k -> length b = bs -> length (block st b) = k) ->
  (forall st, length st = k -> length (out st) = hs /\ octets (out st)) ->
  forall m, octets m -> N.of_nat (length m) < 2 ^ 61 ->
  exists d, hash_processor h false (Some m) (N.of_nat (length m)) = Done (ok d) /\ length d = hs /\ octets d.
Proof.
  intros h bs field block init out k hs A Hb Hf Li Hblk Ho m Hm Hl. eexists. split; [exact (A false m Hm Hl)|]. cbn [shown].
  apply Ho. apply (iterate_ext bs k block block); [lia|apply code_padded_blocks; [lia|lia|apply Hf]|exact Li|].
  intros st b Ls Lb. split; [reflexivity|apply Hblk; assumption].
Qed.
Definition bs_of (h : hash_params) : nat := (hp_nr h * hp_wb h)%nat.
Ltac le_hash A c := refine (ok_digest _ _ (sized_digest _ _ _ _ _ _ _ _ A _ _ _ (fun st b L _ => proj2 (c st b L)) _) _ _ _);
  [lia|intro t; apply le_bytes_length|reflexivity|intros st L; destruct (le_string_len 4 st) as [X Y]; rewrite X, L; split; [reflexivity|exact Y]|lia|lia].
Lemma i_md4 : implements (ptrs md4 64 16) (digest md4) 64 16. Proof. le_hash m_md4 md4_comp_eq. Qed.
Lemma i_md5 : implements (ptrs md5 64 16) (digest md5) 64 16. Proof. le_hash m_md5 md5_comp_eq. Qed.
Lemma i_rmd128 : implements (ptrs ripemd128 64 16) (digest ripemd128) 64 16. Proof. le_hash m_rmd128 rmd128_comp_eq. Qed.
Lemma i_rmd160 : implements (ptrs ripemd160 64 20) (digest ripemd160) 64 20. Proof. le_hash m_rmd160 rmd160_comp_eq. Qed.
Lemma i_sha1 : implements (ptrs sha1 64 20) (digest sha1) 64 20.
Proof.
  refine (ok_digest _ _ (sized_digest _ _ _ _ _ _ _ _ m_sha1 _ _ _ (fun st b L M => proj2 (sha1_comp_eq st b L M)) _) _ _ _);
  [lia|intro t; apply be_bytes_length|reflexivity|intros st L; destruct (be_string_len 4 st) as [X Y]; rewrite X, L; split; [reflexivity|exact Y]|lia|lia].
Qed.
Lemma sha2_256_len : forall st b, length st = 8%nat -> length b = 64%nat -> length (SHA2_block SHA32 4 st b) = 8%nat.
Proof. intros st b L M. apply (sha2_comp_eq p256 SHA32 4 st b rel256 ltac:(lia) L M). Qed.
Lemma sha2_512_len : forall st b, length st = 8%nat -> length b = 128%nat -> length (SHA2_block SHA64 8 st b) = 8%nat.
Proof. intros st b L M. apply (sha2_comp_eq p512 SHA64 8 st b rel512 ltac:(lia) L M). Qed.
Lemma init_len224 : length SHA224_init = 8%nat.
Proof. rewrite sha224_init_eq. reflexivity. Qed.
Lemma init_len256 : length SHA256_init = 8%nat.
Proof. rewrite sha256_init_eq. reflexivity. Qed.
Lemma init_len384 : length SHA384_init = 8%nat.
Proof. rewrite sha384_init_eq. reflexivity. Qed.
Lemma init_len512 : length SHA512_init = 8%nat.
Proof. rewrite sha512_init_eq. reflexivity. Qed.
Lemma i_sha224 : implements (ptrs sha224 64 28) (digest sha224) 64 28.
Proof.
  refine (ok_digest sha224 28 (sized_digest sha224 64 (be_bytes 8) (SHA2_block SHA32 4) SHA224_init p224 8 28 m_sha224 _ _ _ sha2_256_len _) _ _ _);
  [lia|intro t; apply be_bytes_length|exact init_len224|intros st L; unfold p224; destruct (be_string_len 4 (firstn 7 st)) as [X Y]; rewrite X, firstn_length, L; split; [reflexivity|exact Y]|lia|lia].
Qed.
Lemma i_sha256 : implements (ptrs sha256 64 32) (digest sha256) 64 32.
Proof.
  refine (ok_digest sha256 32 (sized_digest sha256 64 (be_bytes 8) (SHA2_block SHA32 4) SHA256_init (be_string 4) 8 32 m_sha256 _ _ _ sha2_256_len _) _ _ _);
  [lia|intro t; apply be_bytes_length|exact init_len256|intros st L; destruct (be_string_len 4 st) as [X Y]; rewrite X, L; split; [reflexivity|exact Y]|lia|lia].
Qed.
Lemma i_sha384 : implements (ptrs sha384 128 48) (digest sha384) 128 48.
Proof.
  refine (ok_digest sha384 48 (sized_digest sha384 128 (be_bytes 8) (SHA2_block SHA64 8) SHA384_init p384 8 48 m_sha384 _ _ _ sha2_512_len _) _ _ _);
  [lia|intro t; apply be_bytes_length|exact init_len384|intros st L; unfold p384; destruct (be_string_len 8 (firstn 6 st)) as [X Y]; rewrite X, firstn_length, L; split; [reflexivity|exact Y]|lia|lia].
Qed.
Lemma i_sha512 : implements (ptrs sha512 128 64) (digest sha512) 128 64.
Proof.
  refine (ok_digest sha512 64 (sized_digest sha512 128 (be_bytes 8) (SHA2_block SHA64 8) SHA512_init (be_string 8) 8 64 m_sha512 _ _ _ sha2_512_len _) _ _ _);
  [lia|intro t; apply be_bytes_length|exact init_len512|intros st L; destruct (be_string_len 8 st) as [X Y]; rewrite X, L; split; [reflexivity|exact Y]|lia|lia].
Qed.

(* ---- HMAC *)
Lemma octets_xor_with : forall c l, c < 256 -> octets l -> octets (xor_with c l).
Proof.
  intros c l Hc H. unfold octets in *. unfold xor_with. rewrite Forall_map. eapply Forall_impl; [|exact H]. intros x Hx. apply (lxor_lt x c 8); assumption.
Qed.
Lemma octets_zeros : forall n, octets (repeat 0 n).
Proof. intro n. apply Forall_forall. intros x Hx. apply repeat_spec in Hx. subst. reflexivity. Qed.
Section Hash.
  Variables (p : hash_ptrs) (H : list N -> list N) (B hs : nat).
  Hypothesis I : implements p H B hs.
  Lemma H_ok : forall m, octets m -> N.of_nat (length m) < 2 ^ 61 -> length (H m) = hs /\ octets (H m).
  Proof. intros m Hm Hl. destruct I as (_ & _ & _ & _ & fn & _ & F). destruct (F m Hm Hl) as (_ & X). exact X. Qed.
  Lemma HMAC_ok : forall K x, text_ok K -> text_ok x -> length (HMAC H B K x) = hs /\ octets (HMAC H B K x).
  Proof.
    intros K x [OK LK] [Ox Lx]. pose proof I as (_ & _ & Hhs & HB & _). unfold HMAC. cbv zeta.
    set (K0 := if (length K <=? B)%nat then K else H K).
    assert (octets K0 /\ (length K0 <= B)%nat) as [OK0 LK0].
    { unfold K0. destruct (Nat.leb_spec (length K) B); [split; assumption|]. destruct (H_ok K OK ltac:(lia)) as [X Y]. split; [exact Y|lia]. }
    set (K1 := K0 ++ repeat 0 (B - length K0)).
    assert (octets K1 /\ length K1 = B) as [OK1 LK1]. { unfold K1. split; [apply octets_app; [exact OK0|apply octets_zeros]|]. rewrite app_length, repeat_length. lia. }
    assert (forall c y, c < 256 -> octets y -> N.of_nat (length y) < 2 ^ 60 -> octets (xor_with c K1 ++ y) /\ N.of_nat (length (xor_with c K1 ++ y)) < 2 ^ 61) as X.
    { intros c y Hc Hy Ly. split; [apply octets_app; [apply octets_xor_with; assumption|exact Hy]|]. rewrite app_length. unfold xor_with. rewrite map_length. lia. }
    destruct (X 0x36 x ltac:(lia) Ox Lx) as [X1 X2]. destruct (H_ok _ X1 X2) as [Y1 Y2].
    destruct (X 0x5C _ ltac:(lia) Y2 ltac:(lia)) as [X3 X4]. apply (H_ok _ X3 X4).
  Qed.
  Lemma hmac_gen_spec : forall fn K x, h_fn p = Some fn -> text_ok K -> text_ok x -> hmac_gen fn B K x = Done (HMAC H B K x ++ x).
  Proof.
    intros fn' K x Ef [OK LK] [Ox Lx]. pose proof I as (_ & _ & Hhs & HB & fn & Ef' & F). rewrite Ef in Ef'. injection Ef' as <-.
    unfold hmac_gen, HMAC. cbv zeta.
    assert ((if Nat.ltb B (length K) then fn' K else Done K) = Done (if (length K <=? B)%nat then K else H K)) as E0.
    { destruct (Nat.leb_spec (length K) B) as [Hle|Hgt].
      - replace (Nat.ltb B (length K)) with false by (symmetry; apply Nat.ltb_ge; exact Hle). reflexivity.
      - replace (Nat.ltb B (length K)) with true by (symmetry; apply Nat.ltb_lt; exact Hgt). apply F; [exact OK|lia]. }
    rewrite E0. cbn [obind].
    set (K0 := if (length K <=? B)%nat then K else H K).
    assert (octets K0 /\ (length K0 <= B)%nat) as [OK0 LK0].
    { unfold K0. destruct (Nat.leb_spec (length K) B); [split; assumption|]. destruct (H_ok K OK ltac:(lia)) as [X Y]. split; [exact Y|lia]. }
    replace (Nat.ltb B (length K0)) with false by (symmetry; apply Nat.ltb_ge; exact LK0).
    set (K1 := K0 ++ repeat 0 (B - length K0)).
    assert (octets K1 /\ length K1 = B) as [OK1 LK1]. { unfold K1. split; [apply octets_app; [exact OK0|apply octets_zeros]|]. rewrite app_length, repeat_length. lia. }
    assert (forall c y, c < 256 -> octets y -> N.of_nat (length y) < 2 ^ 60 -> octets (xor_with c K1 ++ y) /\ N.of_nat (length (xor_with c K1 ++ y)) < 2 ^ 61) as X.
    { intros c y Hc Hy Ly. split; [apply octets_app; [apply octets_xor_with; assumption|exact Hy]|]. rewrite app_length. unfold xor_with. rewrite map_length. lia. }
    destruct (X 0x36 x ltac:(lia) Ox Lx) as [X1 X2]. destruct (F _ X1 X2) as (E1 & Y1 & Y2).
    destruct (X 0x5C _ ltac:(lia) Y2 ltac:(lia)) as [X3 X4]. destruct (F _ X3 X4) as (E2 & _).
    unfold xor_with in E1, E2 |- *. rewrite E1. cbn [obind]. rewrite E2. reflexivity.
  Qed.
  Lemma pointers : exists fn, h_fn p = Some fn /\ h_input_size p = Some B /\ h_size p = Some hs.
  Proof. destruct I as (A1 & A2 & _ & _ & fn & A3 & _). exists fn. auto. Qed.
  Lemma hmac_generates : forall K x i r, text_ok K -> text_ok x -> x <> [] ->
    kryptos_hmac p (mkMT Encrypt (Some K) i (Some x) r) = Done (mkMT Encrypt (Some K) i (Some (HMAC H B K x ++ x)) Success).
  Proof.
    intros K x i r HK Hx Hn. destruct pointers as (fn & E1 & E2 & E3). unfold kryptos_hmac. rewrite E1, E2, E3. cbn [mt_key mt_action mt_out].
    destruct x as [|b x]; [congruence|]. rewrite (hmac_gen_spec fn K (b :: x) E1 HK Hx). reflexivity.
  Qed.
  Lemma text_ok_skipn : forall n x, text_ok x -> text_ok (skipn n x).
  Proof.
    intros n x [O L]. split; [|rewrite skipn_length; lia]. unfold octets in *. rewrite <- (firstn_skipn n x) in O. apply Forall_app in O. apply O.
  Qed.
  Lemma hmac_verifies : forall K inp o r, text_ok K -> text_ok inp ->
    kryptos_hmac p (mkMT Decrypt (Some K) (Some inp) o r) =
    Done (if (Nat.ltb hs (length inp) && eqb_list (firstn hs inp) (HMAC H B K (skipn hs inp)))%bool
          then mkMT Decrypt (Some K) (Some (skipn hs inp)) o Success
          else mkMT Decrypt (Some K) (Some inp) o HMACError).
  Proof.
    intros K inp o r HK Hi. destruct pointers as (fn & E1 & E2 & E3). unfold kryptos_hmac. rewrite E1, E2, E3. cbn [mt_key mt_action mt_in].
    destruct inp as [|b x]; [cbn [length]; replace (Nat.ltb hs 0) with false by (symmetry; apply Nat.ltb_ge; lia); reflexivity|].
    set (inp := b :: x) in *. unfold hmac_check. destruct (Nat.leb_spec (length inp) hs) as [Hle|Hgt].
    - replace (Nat.ltb hs (length inp)) with false by (symmetry; apply Nat.ltb_ge; exact Hle). reflexivity.
    - replace (Nat.ltb hs (length inp)) with true by (symmetry; apply Nat.ltb_lt; exact Hgt). cbv zeta. cbn [andb].
      pose proof (text_ok_skipn hs inp Hi) as Hx.
      rewrite (hmac_gen_spec fn K _ E1 HK Hx). cbn [obind]. destruct (HMAC_ok K _ HK Hx) as [L _].
      rewrite (firstn_exact _ (HMAC H B K (skipn hs inp)) (skipn hs inp) hs L).
      destruct (eqb_list (HMAC H B K (skipn hs inp)) (firstn hs inp)) eqn:E.
      + apply eqb_list_eq in E. rewrite E. replace (eqb_list (firstn hs inp) (firstn hs inp)) with true by (symmetry; apply eqb_list_eq; reflexivity). reflexivity.
      + destruct (eqb_list (firstn hs inp) (HMAC H B K (skipn hs inp))) eqn:E'; [|reflexivity]. apply eqb_list_eq in E'. rewrite E' in E.
        assert (eqb_list (HMAC H B K (skipn hs inp)) (HMAC H B K (skipn hs inp)) = true) as X by (apply eqb_list_eq; reflexivity). congruence.
  Qed.
  (* a missing salt is as good as one of zeros *)
  Lemma HMAC_zeros : forall n x, (n <= B)%nat -> HMAC H B (repeat 0 n) x = HMAC H B [] x.
  Proof.
    intros n x Hn. unfold HMAC. cbv zeta. rewrite repeat_length. replace (n <=? B)%nat with true by (symmetry; apply Nat.leb_le; exact Hn).
    cbn [length]. replace (0 <=? B)%nat with true by reflexivity. rewrite repeat_length, <- repeat_app. replace (n + (B - n))%nat with B by lia.
    cbn [app]. rewrite Nat.sub_0_r. reflexivity.
  Qed.

  (* ---- HKDF *)
  Lemma hmac_call_spec : forall K x, text_ok K -> text_ok x -> x <> [] ->
    hmac_call p K x = Done (mkMT Encrypt (Some K) None (Some (HMAC H B K x ++ x)) Success).
  Proof. intros. apply hmac_generates; assumption. Qed.
  Lemma take_step : forall (g : nat -> list N) s k L, length (g s) = hs -> firstn L (concat (map g (seq s (S k)))) =
    firstn (Nat.min L hs) (g s) ++ firstn (L - Nat.min L hs) (concat (map g (seq (S s) k))).
  Proof.
    intros g s k L Hg. cbn [seq map concat]. rewrite firstn_app, Hg. f_equal.
    - destruct (Nat.min_spec L hs) as [[A ->]|[A ->]]; [reflexivity|]. rewrite !firstn_all2 by lia. reflexivity.
    - f_equal. lia.
  Qed.
  Lemma HKDF_T_len : forall PRK info n, text_ok PRK -> octets info -> N.of_nat (length info) < 2 ^ 59 -> (n <= 255)%nat ->
    octets (HKDF_T H B PRK info n) /\ (length (HKDF_T H B PRK info n) <= hs)%nat /\ (0 < n -> length (HKDF_T H B PRK info n) = hs)%nat.
  Proof.
    intros PRK info n HP Oi Li. pose proof I as (_ & _ & Hhs & HB & _). induction n as [|n IH]; intro Hn; [cbn; repeat split; [constructor|lia|lia]|].
    destruct (IH ltac:(lia)) as (O & L & _). cbn [HKDF_T].
    destruct (HMAC_ok PRK (HKDF_T H B PRK info n ++ info ++ [N.of_nat (S n)]) HP) as [X Y].
    { split; [apply octets_app; [exact O|apply octets_app; [exact Oi|]]|].
      - constructor; [lia|constructor].
      - rewrite !app_length. cbn [length]. lia. }
    repeat split; [exact Y|lia|intros _; exact X].
  Qed.
  Lemma hkdf_loop_spec : forall PRK info, text_ok PRK -> octets info -> N.of_nat (length info) < 2 ^ 59 ->
    forall fuel room k n okm, (room <= fuel)%nat -> (room <= k)%nat -> (n * hs + room <= 255 * hs)%nat ->
    hkdf_loop fuel p PRK info hs room (N.of_nat (S n) mod 256) (HKDF_T H B PRK info n) okm =
    Done (Some (okm ++ firstn room (concat (map (HKDF_T H B PRK info) (seq (S n) k))))).
  Proof.
    intros PRK info HP Oi Li. pose proof I as (_ & _ & Hhs & HB & _).
    induction fuel as [|fuel IH]; intros room k n okm Hf Hk Hn; destruct room as [|room']; try lia.
    - cbn [hkdf_loop firstn]. rewrite app_nil_r. reflexivity.
    - cbn [hkdf_loop firstn]. rewrite app_nil_r. reflexivity.
    - cbn [hkdf_loop]. set (room := S room') in *.
      assert (n < 255)%nat as Hn' by (unfold room in *; nia).
      destruct (HKDF_T_len PRK info n HP Oi Li ltac:(lia)) as (O & L & _).
      destruct (HKDF_T_len PRK info (S n) HP Oi Li ltac:(lia)) as (O' & _ & L'). specialize (L' ltac:(lia)).
      rewrite (N.mod_small (N.of_nat (S n)) 256) by lia.
      assert (text_ok (HKDF_T H B PRK info n ++ info ++ [N.of_nat (S n)])) as Hx.
      { split; [apply octets_app; [exact O|apply octets_app; [exact Oi|constructor; [lia|constructor]]]|]. rewrite !app_length. cbn [length]. lia. }
      rewrite hmac_call_spec; [|exact HP|exact Hx|intro E; apply (f_equal (@length N)) in E; rewrite !app_length in E; cbn [length] in E; lia].
      cbn [obind mt_result mt_out].
      change (HMAC H B PRK (HKDF_T H B PRK info n ++ info ++ [N.of_nat (S n)])) with (HKDF_T H B PRK info (S n)).
      destruct k as [|k]; [unfold room in *; lia|]. rewrite (take_step (HKDF_T H B PRK info) (S n) k room L').
      replace (if Nat.leb hs room then hs else room) with (Nat.min room hs).
      2:{ destruct (Nat.leb_spec hs room); lia. }
      assert (firstn (Nat.min room hs) (HKDF_T H B PRK info (S n) ++ HKDF_T H B PRK info n ++ info ++ [N.of_nat (S n)]) = firstn (Nat.min room hs) (HKDF_T H B PRK info (S n))) as E1.
      { rewrite firstn_app. rewrite L'. replace (Nat.min room hs - hs)%nat with 0%nat by lia. cbn [firstn]. apply app_nil_r. }
      rewrite E1.
      destruct (Nat.le_gt_cases hs room) as [Hle|Hgt].
      + rewrite Nat.min_r by lia. rewrite (firstn_all2 (n := hs)) by lia.
        replace ((N.of_nat (S n) + 1) mod 256) with (N.of_nat (S (S n)) mod 256) by (f_equal; lia).
        rewrite (IH (room - hs)%nat k (S n)) by (unfold room in *; nia). rewrite <- app_assoc. reflexivity.
      + rewrite Nat.min_l by lia. rewrite Nat.sub_diag. cbn [firstn]. rewrite app_nil_r.
        destruct fuel; reflexivity.
  Qed.
  Lemma lp_same : mkPtrs (match h_fn p with None => Some (hash_fn sha256) | f => f end)
                   (match h_input_size p with None => Some 64%nat | s => s end)
                   (match h_size p with None => Some 32%nat | s => s end) = p.
  Proof. destruct pointers as (fn & E1 & E2 & E3). rewrite E1, E2, E3. destruct p as [a b c]. cbn in *. congruence. Qed.
  Lemma hkdf_spec : forall ikm salt info L, text_ok ikm -> ikm <> [] -> text_ok salt -> octets info -> N.of_nat (length info) < 2 ^ 59 ->
    (1 <= L <= 255 * hs)%nat -> forall so io, so = Some salt \/ so = None /\ salt = [] -> io = Some info \/ io = None /\ info = [] ->
    do_hkdf p (Some ikm) so (N.of_nat (length salt)) io (N.of_nat (length info)) L = Done (Some (HKDF H B salt ikm info L)).
  Proof.
    intros ikm salt info L Hi Hn Hs Oi Li HL so io Hso Hio. destruct pointers as (fn & E1 & E2 & E3). unfold do_hkdf. cbv zeta. rewrite lp_same, E3.
    assert ((match so with None => 0 <? N.of_nat (length salt) | _ => false end) = false) as X1.
    { destruct Hso as [->|[-> ->]]; reflexivity. }
    assert ((match io with None => 0 <? N.of_nat (length info) | _ => false end) = false) as X2.
    { destruct Hio as [->|[-> ->]]; reflexivity. }
    rewrite X1, X2. replace (Nat.eqb L 0) with false by (symmetry; apply Nat.eqb_neq; lia).
    replace (Nat.ltb (255 * hs) L) with false by (symmetry; apply Nat.ltb_ge; lia). cbn [orb].
    replace (match so with None => [] | Some s => s end) with salt by (destruct Hso as [->|[-> ->]]; reflexivity).
    replace (match io with None => [] | Some s => s end) with info by (destruct Hio as [->|[-> ->]]; reflexivity).
    rewrite hmac_call_spec by assumption. cbn [obind mt_result mt_out].
    destruct (HMAC_ok salt ikm Hs Hi) as [Lp Op]. rewrite (firstn_exact _ _ _ hs Lp).
    pose proof I as (_ & _ & Hhs & HB & _).
    pose proof (hkdf_loop_spec (HMAC H B salt ikm) info ltac:(split; [exact Op|lia]) Oi Li L L L 0%nat [] ltac:(lia) ltac:(lia) ltac:(lia)) as X.
    change (N.of_nat 1 mod 256) with 1 in X. cbn [HKDF_T] in X. rewrite X. reflexivity.
  Qed.

  (* ---- PBKDF2 *)
  Lemma U_ok : forall P S i j, text_ok P -> octets S -> N.of_nat (length S) < 2 ^ 59 -> length (U (HMAC H B) P S i j) = hs /\ octets (U (HMAC H B) P S i j).
  Proof.
    intros P S i j HP OS LS. pose proof I as (_ & _ & Hhs & HB & _). induction j as [|j [IH1 IH2]]; cbn [U]; apply HMAC_ok; try exact HP.
    - split; [apply octets_app; [exact OS|apply (proj2 (octets_bytes _)), be_bytes_bytes]|]. rewrite app_length, be_bytes_length. lia.
    - split; [exact IH2|]. lia.
  Qed.
  Lemma rounds_spec : forall P S i, text_ok P -> octets S -> N.of_nat (length S) < 2 ^ 59 -> forall n j out dk, firstn hs out = U (HMAC H B) P S i j ->
    pbkdf2_rounds n p (Some P) hs out dk = Done (Some (xor_all (map (U (HMAC H B) P S i) (seq (Datatypes.S j) n)) dk)).
  Proof.
    intros P S i HP OS LS. pose proof I as (_ & _ & Hhs & HB & _). induction n as [|n IH]; intros j out dk E; cbn [pbkdf2_rounds]; [reflexivity|].
    destruct (U_ok P S i j HP OS LS) as [L O]. rewrite E.
    rewrite hmac_generates; [|exact HP|split; [exact O|lia]|intro X; rewrite X in L; cbn [length] in L; lia].
    cbn [obind mt_result mt_out]. destruct (U_ok P S i (Datatypes.S j) HP OS LS) as [L' _].
    change (HMAC H B P (U (HMAC H B) P S i j)) with (U (HMAC H B) P S i (Datatypes.S j)).
    assert (firstn hs (U (HMAC H B) P S i (Datatypes.S j) ++ U (HMAC H B) P S i j) = U (HMAC H B) P S i (Datatypes.S j)) as E2 by (apply firstn_exact; exact L').
    rewrite (IH (Datatypes.S j) _ _ E2), E2. reflexivity.
  Qed.
  Lemma int4 : forall i, i < 2 ^ 32 -> [shr i 24 mod 256; and (shr i 16) 0xFF; and (shr i 8) 0xFF; and i 0xFF] = be_bytes 4 i.
  Proof.
    intros i Hi. rewrite be_bytes4. change 0xFF with (N.ones 8). rewrite !N.land_ones, !N.shiftr_div_pow2. reflexivity.
  Qed.
  Lemma f_spec : forall P S c i so, text_ok P -> octets S -> N.of_nat (length S) < 2 ^ 59 -> i < 2 ^ 32 -> so = Some S \/ so = None /\ S = [] ->
    pbkdf2_f p (Some P) so (N.of_nat (length S)) c hs i = Done (Some (F (HMAC H B) P S (N.to_nat c) i)).
  Proof.
    intros P S c i so HP OS LS Hi Hso. pose proof I as (_ & _ & Hhs & HB & _). unfold pbkdf2_f.
    replace (match so with Some s => Done s | None => if N.of_nat (length S) =? 0 then Done [] else UB end) with (Done S).
    2:{ destruct Hso as [->|[-> ->]]; reflexivity. }
    cbn [obind]. rewrite int4 by exact Hi.
    rewrite hmac_generates; [|exact HP| |].
    2:{ split; [apply octets_app; [exact OS|apply (proj2 (octets_bytes _)), be_bytes_bytes]|]. rewrite app_length, be_bytes_length. lia. }
    2:{ intro X. apply (f_equal (@length N)) in X. rewrite app_length, be_bytes_length in X. cbn [length] in X. lia. }
    cbn [obind mt_result mt_out]. change (HMAC H B P (S ++ be_bytes 4 i)) with (U (HMAC H B) P S i 0).
    destruct (U_ok P S i 0 HP OS LS) as [L O].
    assert (firstn hs (U (HMAC H B) P S i 0 ++ S ++ be_bytes 4 i) = U (HMAC H B) P S i 0) as E by (apply firstn_exact; exact L).
    rewrite (rounds_spec P S i HP OS LS _ 0 _ _ E), E. unfold F. do 4 f_equal. f_equal. lia.
  Qed.
  Lemma xor_all_len : forall l acc, length acc = hs -> (forall u, In u l -> length u = hs) -> length (xor_all l acc) = hs.
  Proof.
    induction l as [|u l IH]; intros acc La Hl; cbn [xor_all]; [exact La|]. apply IH; [|intros v Hv; apply Hl; right; exact Hv].
    rewrite xorl_length, La, (Hl u (or_introl eq_refl)). apply Nat.min_id.
  Qed.
  Lemma F_len : forall P S c i, text_ok P -> octets S -> N.of_nat (length S) < 2 ^ 59 -> length (F (HMAC H B) P S c i) = hs.
  Proof.
    intros P S c i HP OS LS. unfold F. apply xor_all_len; [apply U_ok; assumption|]. intros u Hu. apply in_map_iff in Hu. destruct Hu as [j [<- _]]. apply U_ok; assumption.
  Qed.
  Lemma pbkdf2_loop_spec : forall P S c so, text_ok P -> octets S -> N.of_nat (length S) < 2 ^ 59 -> so = Some S \/ so = None /\ S = [] ->
    forall fuel room k n dk, (room <= fuel)%nat -> (room <= k)%nat -> N.of_nat n * N.of_nat hs + N.of_nat room <= (2 ^ 32 - 1) * N.of_nat hs ->
    pbkdf2_loop fuel p (Some P) so (N.of_nat (length S)) c hs room (N.of_nat (Datatypes.S n) mod 2 ^ 32) dk =
    Done (Some (dk ++ firstn room (concat (map (fun i => F (HMAC H B) P S (N.to_nat c) (N.of_nat i)) (seq (Datatypes.S n) k))))).
  Proof.
    intros P S c so HP OS LS Hso. pose proof I as (_ & _ & Hhs & HB & _).
    induction fuel as [|fuel IH]; intros room k n dk Hf Hk Hn; destruct room as [|room']; try lia.
    - cbn [pbkdf2_loop firstn]. rewrite app_nil_r. reflexivity.
    - cbn [pbkdf2_loop firstn]. rewrite app_nil_r. reflexivity.
    - cbn [pbkdf2_loop]. set (room := Datatypes.S room') in *.
      assert (N.of_nat n < 2 ^ 32 - 1) as Hn' by (unfold room in *; nia).
      rewrite (N.mod_small (N.of_nat (Datatypes.S n))) by lia.
      rewrite f_spec by (try assumption; lia). cbn [obind]. cbv zeta.
      destruct k as [|k]; [unfold room in *; lia|]. rewrite (take_step (fun i => F (HMAC H B) P S (N.to_nat c) (N.of_nat i)) (Datatypes.S n) k room (F_len P S (N.to_nat c) _ HP OS LS)).
      destruct (Nat.le_gt_cases hs room) as [Hle|Hgt].
      + rewrite Nat.min_r by lia. replace ((N.of_nat (Datatypes.S n) + 1) mod 2 ^ 32) with (N.of_nat (Datatypes.S (Datatypes.S n)) mod 2 ^ 32) by (f_equal; lia).
        rewrite (IH (room - hs)%nat k (Datatypes.S n)) by (unfold room in *; nia). rewrite <- app_assoc. reflexivity.
      + rewrite Nat.min_l by lia. rewrite Nat.sub_diag. cbn [firstn]. rewrite app_nil_r. destruct fuel; reflexivity.
  Qed.
  Lemma pbkdf2_spec : forall P S c dklen so, text_ok P -> octets S -> N.of_nat (length S) < 2 ^ 59 -> so = Some S \/ so = None /\ S = [] ->
    N.of_nat dklen <= (2 ^ 32 - 1) * N.of_nat hs ->
    do_pbkdf2 p (Some P) so (N.of_nat (length S)) c dklen = Done (Some (PBKDF2 (HMAC H B) P S (N.to_nat c) dklen)).
  Proof.
    intros P S c dklen so HP OS LS Hso Hd. destruct pointers as (fn & E1 & E2 & E3). unfold do_pbkdf2. rewrite E3.
    replace ((2 ^ 32 - 1) * N.of_nat hs <? N.of_nat dklen) with false by (symmetry; apply N.ltb_ge; exact Hd).
    pose proof (pbkdf2_loop_spec P S c so HP OS LS Hso dklen dklen dklen 0%nat [] ltac:(lia) ltac:(lia) ltac:(lia)) as X.
    change (N.of_nat 1 mod 2 ^ 32) with 1 in X. rewrite X. reflexivity.
  Qed.
End Hash.
