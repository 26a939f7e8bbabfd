(* What kryptos_ld_user_key does with the bytes of a user key *)
From Verif Require Import Words TaskModel ModeModel EncSpec CipherBase CipherLib BlockSpec DesModel DesProofs AesModel CamelliaModel
  Cast5Model IdeaModel FealModel GostModel ShacalModel SaferModel BlowfishModel NoekeonModel RcModel RcProofs SaferProofs
  BlowfishProofs SerpentModel SerpentProofs MarsModel MarsProofs PresentModel PresentProofs TwofishModel.
Open Scope N_scope.

Lemma upd_mid : forall P v Z x, upd (P ++ v :: Z) (length P) x = P ++ x :: Z.
Proof. induction P as [|a P IH]; intros; cbn; [reflexivity|]. rewrite IH. reflexivity. Qed.
Lemma nth_mid : forall (P : list N) v Z, nth (length P) (P ++ v :: Z) 0 = v.
Proof. intros. rewrite app_nth2 by lia. rewrite Nat.sub_diag. reflexivity. Qed.

Section Load.
Variables (wb nr : nat).
Hypothesis Hwb : (1 <= wb)%nat.
Let step := ld_user_key_byte wb nr.

Lemma push_byte : forall v b k, v < 256 ^ N.of_nat b -> (b < wb)%nat -> k < 256 ->
  N.lor (shlw (8 * N.of_nat wb) v 8) k = v * 256 + k.
Proof.
  intros v b k Hv Hb Hk. unfold shlw. rewrite N.shiftl_mul_pow2. change (2 ^ 8) with 256.
  assert (v * 256 < 2 ^ (8 * N.of_nat wb)) as H.
  { replace (8 * N.of_nat wb) with (8 * N.of_nat (S b) + 8 * N.of_nat (wb - S b)) by lia.
    rewrite N.pow_add_r. rewrite (N.pow_mul_r 2 8). change (2 ^ 8) with 256.
    rewrite Nat2N.inj_succ, N.pow_succ_r'. assert (2 ^ (8 * N.of_nat (wb - S b)) <> 0) by (apply N.pow_nonzero; discriminate). nia. }
  rewrite N.mod_small by exact H.
  replace (v * 256) with (N.shiftl v 8) by (rewrite N.shiftl_mul_pow2; reflexivity). rewrite lor_add by exact Hk. rewrite N.shiftl_mul_pow2. reflexivity.
Qed.
Lemma load_some : forall ks acc P Z, bytes ks -> bytes acc -> (length P < nr)%nat -> (length acc + length ks < wb)%nat ->
  fold_left step ks (P ++ be_val acc :: Z, length P, length acc) =
  (P ++ be_val (acc ++ ks) :: Z, length P, (length acc + length ks)%nat).
Proof.
  induction ks as [|k ks IH]; intros acc P Z Hk Ha HP HL; cbn [fold_left].
  - rewrite app_nil_r. cbn [length]. rewrite Nat.add_0_r. reflexivity.
  - cbn [length] in HL. inversion Hk as [|? ? H1 H2]; subst.
    unfold step at 2, ld_user_key_byte.
    assert (Nat.ltb (length P) nr = true) as -> by (apply Nat.ltb_lt; exact HP).
    rewrite Nat.mod_small by lia.
    destruct (Nat.eqb_spec (length acc + 1) 0); [lia|]. rewrite nth_mid, upd_mid.
    rewrite (push_byte (be_val acc) (length acc) k); [|apply be_val_lt, Ha|lia|exact H1].
    rewrite <- be_val_app. replace (length acc + 1)%nat with (length (acc ++ [k])) by (rewrite app_length; reflexivity).
    rewrite IH; [|exact H2| |exact HP|rewrite app_length; cbn [length]; lia].
    + rewrite <- app_assoc, app_length. cbn [app length]. f_equal. lia.
    + apply Forall_app. split; [exact Ha|]. constructor; [exact H1|constructor].
Qed.
Lemma load_word : forall ks P Z, bytes ks -> length ks = wb -> (length P < nr)%nat ->
  fold_left step ks (P ++ 0 :: Z, length P, 0%nat) = (P ++ be_val ks :: Z, S (length P), 0%nat).
Proof.
  intros ks P Z Hk HL HP. destruct (exists_last (l := ks)) as (ks' & k & E); [intro E0; rewrite E0 in HL; cbn in HL; lia|]. subst ks.
  apply Forall_app in Hk. destruct Hk as [Hk1 Hk2]. assert (k < 256) as H1 by (inversion Hk2; assumption).
  rewrite app_length in HL. cbn [length] in HL. rewrite fold_left_app.
  pose proof (load_some ks' [] P Z Hk1 (Forall_nil _) HP ltac:(cbn [length]; lia)) as E. change (be_val []) with 0 in E.
  cbn [length app] in E. rewrite E. clear E. cbn [fold_left]. unfold step, ld_user_key_byte.
  assert (Nat.ltb (length P) nr = true) as -> by (apply Nat.ltb_lt; exact HP).
  rewrite nth_mid, upd_mid. rewrite (push_byte (be_val ks') (length ks') k); [|apply be_val_lt, Hk1|lia|exact H1].
  rewrite <- be_val_app. replace (0 + length ks' + 1)%nat with wb by lia. rewrite Nat.mod_same by lia. reflexivity.
Qed.
Lemma load_be_step : forall m k, load_be wb (S m) k = be_val (firstn wb k) :: load_be wb m (skipn wb k).
Proof.
  intros m k. unfold load_be. cbn [seq map]. f_equal. rewrite <- seq_shift, map_map. apply map_ext. intro i.
  unfold slice. rewrite skipn_add. reflexivity.
Qed.
Lemma load_words : forall m key P Y, bytes key -> length key = (m * wb)%nat -> (length P + m <= nr)%nat ->
  fold_left step key (P ++ repeat 0 m ++ Y, length P, 0%nat) = (P ++ load_be wb m key ++ Y, (length P + m)%nat, 0%nat).
Proof.
  induction m as [|m IH]; intros key P Y Hk HL Hn.
  - destruct key; [|cbn in HL; discriminate HL]. cbn. rewrite Nat.add_0_r. reflexivity.
  - cbn [repeat app]. rewrite <- (firstn_skipn wb key) at 1. rewrite fold_left_app.
    assert (length (firstn wb key) = wb) as L1 by (rewrite firstn_length; cbn in HL; lia).
    rewrite (load_word (firstn wb key)); [|apply bytes_firstn, Hk|exact L1|lia].
    rewrite load_be_step. set (v := be_val (firstn wb key)).
    replace (P ++ v :: repeat 0 m ++ Y) with ((P ++ [v]) ++ repeat 0 m ++ Y) by (rewrite <- app_assoc; reflexivity).
    replace (S (length P)) with (length (P ++ [v])) by (rewrite app_length; cbn; lia).
    rewrite IH.
    + rewrite <- app_assoc. cbn [app]. rewrite app_length. cbn [length].
      replace (length P + 1 + m)%nat with (length P + S m)%nat by lia. reflexivity.
    + apply bytes_skipn, Hk.
    + rewrite skipn_length, HL. cbn. lia.
    + rewrite app_length. cbn [length]. lia.
Qed.
End Load.

(* every whole word is the big-endian value of its bytes; a partial last word of r bytes is their big-endian
   value shifted left r bytes more, the bytes shifted out being lost *)
Lemma ld_user_key_words : forall wb nr calls m r key, (1 <= wb)%nat -> bytes key -> key <> [] ->
  length key = (m * wb + r)%nat -> (r < wb)%nat -> (length key <= calls)%nat -> (length key <= wb * nr)%nat ->
  ld_user_key wb nr calls key =
    if Nat.eqb r 0 then load_be wb m key ++ repeat 0 (nr - m)
    else load_be wb m key ++
         (be_val (skipn (m * wb) key) * 2 ^ (8 * N.of_nat r)) mod 2 ^ (8 * N.of_nat wb) :: repeat 0 (nr - S m).
Proof.
  intros wb nr calls m r key Hwb Hk Hne HL Hr Hc Hn.
  unfold ld_user_key. destruct key as [|k0 key0] eqn:EK; [congruence|]. rewrite <- EK in *. clear EK k0 key0.
  rewrite firstn_all2 by exact Hc.
  pose proof (firstn_skipn (m * wb) key) as Es.
  assert (length (firstn (m * wb) key) = (m * wb)%nat) as L1 by (rewrite firstn_length; lia).
  assert (length (skipn (m * wb) key) = r) as L2 by (rewrite skipn_length; lia).
  assert (m <= nr)%nat as Hm by nia.
  assert (load_be wb m (firstn (m * wb) key) = load_be wb m key) as EL.
  { unfold load_be. apply map_ext_in. intros i Hi. apply in_seq in Hi. unfold slice.
    rewrite skipn_firstn_comm, firstn_firstn. f_equal. f_equal. apply Nat.min_l. nia. }
  replace (repeat 0 nr) with (repeat 0 m ++ repeat 0 (nr - m)) by (rewrite <- repeat_app; f_equal; lia).
  rewrite <- Es at 1. rewrite fold_left_app.
  pose proof (load_words wb nr Hwb m (firstn (m * wb) key) [] (repeat 0 (nr - m)) (bytes_firstn _ _ Hk) L1
    ltac:(cbn [length]; lia)) as H. cbn [app length] in H. rewrite H. clear H. rewrite EL.
  set (W := load_be wb m key). assert (length W = m) as LW by (unfold W, load_be; rewrite map_length, seq_length; reflexivity).
  destruct (Nat.eqb_spec r 0) as [E0|E0].
  - rewrite E0 in L2. destruct (skipn (m * wb) key); [|discriminate L2]. cbn [fold_left].
    replace (0 + m)%nat with (length W) by lia.
    destruct (Nat.ltb_spec (length W) nr); [|reflexivity].
    replace (nr - m)%nat with (S (nr - S m)) by lia. cbn [repeat]. rewrite nth_mid, upd_mid. reflexivity.
  - assert (m < nr)%nat as Hm' by nia. replace (nr - m)%nat with (S (nr - S m)) by lia. cbn [repeat].
    replace (0 + m)%nat with (length W) by lia.
    pose proof (load_some wb nr Hwb (skipn (m * wb) key) [] W (repeat 0 (nr - S m)) (bytes_skipn _ _ Hk) (Forall_nil _)
      ltac:(lia) ltac:(cbn [length]; lia)) as H. cbn [app length] in H. change (be_val []) with 0 in H. rewrite H. clear H.
    destruct (Nat.ltb_spec (length W) nr); [|lia]. rewrite nth_mid, upd_mid, L2. cbn [plus].
    unfold shlw. rewrite N.shiftl_mul_pow2. reflexivity.
Qed.

Lemma load_be_inj : forall wb m k1 k2, (1 <= wb)%nat -> bytes k1 -> bytes k2 ->
  (m * wb <= length k1)%nat -> (m * wb <= length k2)%nat ->
  load_be wb m k1 = load_be wb m k2 -> firstn (m * wb) k1 = firstn (m * wb) k2.
Proof.
  intros wb m k1 k2 Hwb H1 H2. revert k1 k2 H1 H2. induction m as [|m IH]; intros k1 k2 H1 H2 L1 L2 E; [reflexivity|].
  rewrite !load_be_step in E. injection E as E1 E2.
  assert (forall k : list N, (S m * wb <= length k)%nat -> firstn (S m * wb) k = firstn wb k ++ firstn (m * wb) (skipn wb k)) as S2.
  { intros k Hk. pose proof (firstn_skipn wb k) as Ek. rewrite <- Ek at 1. rewrite firstn_app, firstn_firstn.
    assert (length (firstn wb k) = wb) as -> by (rewrite firstn_length; cbn in Hk; lia).
    f_equal; f_equal; cbn; lia. }
  rewrite !S2 by assumption. f_equal.
  - rewrite <- (be_bytes_val (firstn wb k1)), <- (be_bytes_val (firstn wb k2)) by (apply bytes_firstn; assumption).
    rewrite E1. f_equal. rewrite !firstn_length. cbn in L1, L2. lia.
  - apply IH; try (apply bytes_skipn; assumption); try exact E2; rewrite skipn_length; cbn in L1, L2; lia.
Qed.

Lemma half_word_inj : forall wb r a b, (2 * r <= wb)%nat -> a < 256 ^ N.of_nat r -> b < 256 ^ N.of_nat r ->
  (a * 2 ^ (8 * N.of_nat r)) mod 2 ^ (8 * N.of_nat wb) = (b * 2 ^ (8 * N.of_nat r)) mod 2 ^ (8 * N.of_nat wb) -> a = b.
Proof.
  intros wb r a b Hr Ha Hb.
  assert (256 ^ N.of_nat r = 2 ^ (8 * N.of_nat r)) as EP by (rewrite N.pow_mul_r; reflexivity). rewrite EP in Ha, Hb.
  assert (2 ^ (8 * N.of_nat r) * 2 ^ (8 * N.of_nat r) <= 2 ^ (8 * N.of_nat wb)) as HQ
    by (rewrite <- N.pow_add_r; apply N.pow_le_mono_r; [discriminate|lia]).
  assert (2 ^ (8 * N.of_nat r) <> 0) as HP by (apply N.pow_nonzero; discriminate).
  revert Ha Hb HQ HP. generalize (2 ^ (8 * N.of_nat r)) (2 ^ (8 * N.of_nat wb)). intros P Q Ha Hb HQ HP E.
  rewrite !N.mod_small in E by nia. apply N.mul_cancel_r in E; assumption.
Qed.
Lemma tail_inj : forall (W1 W2 : list N) v1 v2 Y1 Y2, length W1 = length W2 -> W1 ++ v1 :: Y1 = W2 ++ v2 :: Y2 -> W1 = W2 /\ v1 = v2.
Proof.
  induction W1 as [|a W1 IH]; intros [|b W2] v1 v2 Y1 Y2 HL H; try discriminate HL; cbn [app] in H; injection H as H1 H2.
  - split; [reflexivity|exact H1].
  - injection HL as HL. destruct (IH _ _ _ _ _ HL H2) as [E1 E2]. split; [f_equal; assumption|exact E2].
Qed.
Lemma be_val_inj : forall a b, bytes a -> bytes b -> length a = length b -> be_val a = be_val b -> a = b.
Proof.
  intros a b Ba Bb HL E. rewrite <- (be_bytes_val a Ba), <- (be_bytes_val b Bb), E, HL. reflexivity.
Qed.
Lemma load_be_length : forall wb m k, length (load_be wb m k) = m.
Proof. intros. unfold load_be. rewrite map_length, seq_length. reflexivity. Qed.
Lemma ld_user_key_injective : forall wb nr calls m r k1 k2, (1 <= wb)%nat -> bytes k1 -> bytes k2 -> k1 <> [] -> k2 <> [] ->
  length k1 = (m * wb + r)%nat -> length k2 = (m * wb + r)%nat -> (2 * r <= wb)%nat ->
  (m * wb + r <= calls)%nat -> (m * wb + r <= wb * nr)%nat ->
  ld_user_key wb nr calls k1 = ld_user_key wb nr calls k2 -> k1 = k2.
Proof.
  intros wb nr calls m r k1 k2 Hwb B1 B2 N1 N2 L1 L2 Hr Hc Hn E.
  rewrite (ld_user_key_words wb nr calls m r k1), (ld_user_key_words wb nr calls m r k2) in E; try assumption; try lia.
  assert (length (skipn (m * wb) k1) = r) as M1 by (rewrite skipn_length; lia).
  assert (length (skipn (m * wb) k2) = r) as M2 by (rewrite skipn_length; lia).
  pose proof (be_val_lt _ (bytes_skipn (m * wb) _ B1)) as V1. rewrite M1 in V1.
  pose proof (be_val_lt _ (bytes_skipn (m * wb) _ B2)) as V2. rewrite M2 in V2.
  assert (load_be wb m k1 = load_be wb m k2 /\ skipn (m * wb) k1 = skipn (m * wb) k2) as [E1 E2].
  { destruct (Nat.eqb r 0) eqn:E0.
    - apply Nat.eqb_eq in E0. apply app_inv_tail in E. split; [exact E|].
      rewrite E0 in M1, M2. destruct (skipn (m * wb) k1); [|discriminate M1]. destruct (skipn (m * wb) k2); [|discriminate M2]. reflexivity.
    - apply tail_inj in E; [|rewrite !load_be_length; reflexivity]. destruct E as [Ea Eb]. split; [exact Ea|].
      apply be_val_inj; [apply bytes_skipn; exact B1|apply bytes_skipn; exact B2|congruence|].
      exact (half_word_inj wb r _ _ Hr V1 V2 Eb). }
  rewrite <- (firstn_skipn (m * wb) k1), <- (firstn_skipn (m * wb) k2), E2. f_equal.
  apply load_be_inj; try assumption; lia.
Qed.

Lemma lost_two : forall x y c, c < 256 ->
  (be_val [x; y; c] * 2 ^ (8 * N.of_nat 3)) mod 2 ^ (8 * N.of_nat 4) = c * 2 ^ 24.
Proof.
  intros x y c Hc. unfold be_val. cbn [fold_left].
  assert (forall P Q R, Q <> 0 -> R * P = Q -> c * P < Q -> R = 256 -> ((((0 * 256 + x) * 256 + y) * 256 + c) * P) mod Q = c * P) as G.
  { intros P Q R HQ E Hlt ER. rewrite ER in E. clear R ER.
    replace ((((0 * 256 + x) * 256 + y) * 256 + c) * P) with (c * P + (x * 256 + y) * (256 * P)) by ring.
    rewrite E, N.mod_add by exact HQ. apply N.mod_small, Hlt. }
  apply (G _ _ 256); [discriminate|reflexivity| |reflexivity].
  apply N.lt_le_trans with (256 * 2 ^ 24); [apply N.mul_lt_mono_pos_r; [reflexivity|exact Hc]|discriminate].
Qed.
(* 4m + 3 bytes: the first two of the last three are lost *)
Lemma ld_user_key_loses : forall nr calls m pre a b a' b' c, bytes pre -> a < 256 -> b < 256 -> a' < 256 -> b' < 256 -> c < 256 ->
  length pre = (m * 4)%nat -> (m * 4 + 3 <= calls)%nat -> (m < nr)%nat ->
  ld_user_key 4 nr calls (pre ++ [a; b; c]) = ld_user_key 4 nr calls (pre ++ [a'; b'; c]).
Proof.
  intros nr calls m pre a b a' b' c Hp Ha Hb Ha' Hb' Hc HL Hcalls Hnr.
  assert (forall x y, x < 256 -> y < 256 -> ld_user_key 4 nr calls (pre ++ [x; y; c]) =
    load_be 4 m pre ++ (c * 2 ^ 24) :: repeat 0 (nr - S m)) as H.
  { intros x y Hx Hy. rewrite (ld_user_key_words 4 nr calls m 3); try lia.
    - cbn [Nat.eqb]. rewrite skipn_app, HL, Nat.sub_diag, skipn_all2 by lia. cbn [skipn app]. f_equal.
      + unfold load_be. apply map_ext_in. intros i Hi. apply in_seq in Hi. f_equal. unfold slice.
        rewrite skipn_app, firstn_app. replace (4 - length (skipn (i * 4) pre))%nat with 0%nat by (rewrite skipn_length; lia).
        cbn [firstn]. rewrite app_nil_r. reflexivity.
      + f_equal. exact (lost_two x y c Hc).
    - apply Forall_app. split; [exact Hp|]. repeat constructor; assumption.
    - destruct pre; discriminate.
    - rewrite app_length. cbn [length]. lia.
    - rewrite app_length. cbn [length]. lia.
    - rewrite app_length. cbn [length]. lia. }
  rewrite !H by assumption. reflexivity.
Qed.

(* DES under the reversed list of sub-keys decrypts *)
Lemma des_reversed : forall K, length K = 16%nat -> forall y, des_block_encrypt (rev K) y = des_block_decrypt K y.
Proof.
  intros K HL.
  assert (forall J l s, fold_left (des_round J) l s = fold_left (fun s k => let '(L, R) := s in (R, xor L (des_f R (fst k) (snd k)))) (map (fun i => nth i J (0, 0)) l) s) as E.
  { intro J. induction l as [|i l IH]; intros [L R]; cbn [fold_left map]; [reflexivity|]. rewrite <- IH. unfold des_round at 2.
    destruct (nth i J (0, 0)). reflexivity. }
  assert (forall J : list (N * N), length J = 16%nat -> map (fun i => nth i J (0, 0)) (seq 0 16) = J) as EK.
  { clear. intros J <-. induction J as [|a J IH]; [reflexivity|]. cbn [length seq map nth]. f_equal.
    rewrite <- seq_shift, map_map. exact IH. }
  assert (forall s, des_words (seq 0 16) (rev K) s = des_words (rev (seq 0 16)) K s) as EW.
  { intro s. unfold des_words. rewrite !E, map_rev, !EK by (rewrite ?rev_length; exact HL). reflexivity. }
  intro y. unfold des_block_encrypt, des_block_decrypt, blk_be. f_equal. unfold on2.
  destruct (load_be 4 2 y) as [|? [|? [|? ?]]]; try reflexivity. rewrite EW. reflexivity.
Qed.
Definition eqb_pairs (a b : list (N * N)) : bool :=
  (eqb_list (map fst a) (map fst b) && eqb_list (map snd a) (map snd b))%bool.
Lemma eqb_pairs_eq : forall a b, eqb_pairs a b = true -> a = b.
Proof.
  intros a b H. apply andb_prop in H. destruct H as [H1 H2]. apply eqb_list_eq in H1, H2. revert b H1 H2.
  induction a as [|[x y] a IH]; intros [|[x' y'] b] H1 H2; try discriminate; [reflexivity|].
  cbn in H1, H2. injection H1 as -> H1. injection H2 as -> H2. f_equal. apply IH; assumption.
Qed.
Lemma des_dual : forall k1 k2, eqb_pairs (des_expand k2) (rev (des_expand k1)) = true -> length (des_expand k1) = 16%nat ->
  forall x, block 8 x -> bc_enc des k2 (bc_enc des k1 x) = x.
Proof.
  intros k1 k2 H HL x [Hx Hl]. apply eqb_pairs_eq in H. cbn [des bc_enc]. rewrite H, des_reversed by exact HL.
  apply des_inverse; assumption.
Qed.

Lemma cast5_key_ext : forall k1 k2, ld_user_key 4 4 16 k1 = ld_user_key 4 4 16 k2 -> length k1 = length k2 ->
  cast5_expand_key k1 = cast5_expand_key k2.
Proof.
  intros k1 k2 H HL. assert (cast5_expand_words k1 = cast5_expand_words k2) as E.
  { cbv beta delta [cast5_expand_words]. rewrite H. reflexivity. }
  cbv beta delta [cast5_expand_key]. rewrite E, HL. reflexivity.
Qed.
Definition word_keyed : list (blockcipher * nat) :=
  [(des, 2%nat); (saferk64 (Some 6%Z), 2%nat); (feal (Some 8%Z), 2%nat);
   (aes128, 4%nat); (camellia128, 4%nat); (cast5, 4%nat); (idea, 4%nat); (noekeon_d, 4%nat);
   (aes192, 6%nat); (camellia192, 6%nat); (aes256, 8%nat); (camellia256, 8%nat); (gost_ds, 8%nat);
   (shacal1, 16%nat); (shacal2, 16%nat)].
Lemma lost_key_bytes : forall pre m a b a' b' c x,
  octets pre -> length pre = (m * 4)%nat -> a < 256 -> b < 256 -> a' < 256 -> b' < 256 -> c < 256 ->
  Forall (fun cn => (m < snd cn)%nat -> bc_enc (fst cn) (pre ++ [a; b; c]) x = bc_enc (fst cn) (pre ++ [a'; b'; c]) x) word_keyed.
Proof.
  intros pre m a b a' b' c x Hp HL Ha Hb Ha' Hb' Hc.
  assert (forall nr calls, (m * 4 + 3 <= calls)%nat -> (m < nr)%nat ->
    ld_user_key 4 nr calls (pre ++ [a; b; c]) = ld_user_key 4 nr calls (pre ++ [a'; b'; c])) as H
    by (intros; apply (ld_user_key_loses nr calls m); assumption).
  unfold word_keyed.
  repeat (apply Forall_cons || apply Forall_nil); cbn [fst snd]; intro Hm;
  cbn [aes128 aes192 aes256 cast5 des gost_ds idea noekeon noekeon_d shacal1 shacal2 camellia128 camellia192
     camellia256 saferk64 feal bc_enc].
  - unfold des_expand, des_key_words. rewrite (H 2%nat 8%nat) by lia. reflexivity.
  - unfold saferk64_make_key. rewrite (H 2%nat 8%nat) by lia. reflexivity.
  - unfold feal_expand_key. rewrite (H 2%nat 8%nat) by lia. reflexivity.
  - unfold aes128_eval_skeys. rewrite (H 4%nat 16%nat) by lia. reflexivity.
  - unfold camellia_keyexp_128. rewrite (H 4%nat 16%nat) by lia. reflexivity.
  - assert (cast5_expand_key (pre ++ [a; b; c]) = cast5_expand_key (pre ++ [a'; b'; c])) as ->; [|reflexivity].
    apply cast5_key_ext; [apply H; lia|rewrite !app_length; reflexivity].
  - unfold idea_key_expander. rewrite (H 4%nat 16%nat) by lia. reflexivity.
  - unfold noekeon_direct_key. rewrite (H 4%nat 16%nat) by lia. reflexivity.
  - unfold aes192_eval_skeys. rewrite (H 6%nat 24%nat) by lia. reflexivity.
  - unfold camellia_keyexp_192. rewrite (H 6%nat 24%nat) by lia. reflexivity.
  - unfold aes256_eval_skeys. rewrite (H 8%nat 32%nat) by lia. reflexivity.
  - unfold camellia_keyexp_256. rewrite (H 8%nat 32%nat) by lia. reflexivity.
  - unfold gost_key. rewrite (H 8%nat 32%nat) by lia. reflexivity.
  - unfold shacal1_key_sched. rewrite (H 16%nat 64%nat) by lia. reflexivity.
  - unfold shacal2_key_sched. rewrite (H 16%nat 64%nat) by lia. reflexivity.
Qed.
Lemma not_eqb_list : forall a b, eqb_list a b = false -> a <> b.
Proof.
  intros a b H E. subst b. assert (eqb_list a a = true) as E; [|congruence].
  clear H. induction a as [|x a IH]; [reflexivity|]. cbn. rewrite N.eqb_refl. exact IH.
Qed.
Lemma safer_rounds_ub : forall rounds key, any_user_key key -> (14 <= rounds <= 800)%Z ->
  bc_check (saferk64 (Some rounds)) key = UB.
Proof.
  intros r key _ Hr. cbn [saferk64 bc_check]. rewrite Z.mod_small by lia. cbv zeta.
  destruct (N.ltb_spec (Z.to_N r) 1); [lia|].
  destruct (N.ltb_spec (N.of_nat saferk64_max_round) (Z.to_N r)); [unfold saferk64_max_round in *; lia|].
  rewrite saferk64_ub by lia. reflexivity.
Qed.
Lemma rc2_ub : forall key, user_key 128 key -> bc_check (rc2 (Some 1025%Z)) key = UB.
Proof.
  intros key (_ & _ & H). cbn [rc2 bc_check]. destruct (Nat.ltb_spec 128 (length key)); [lia|]. cbn [Z.ltb Z.compare Pos.compare orb].
  change (Z.to_N 1025) with 1025. rewrite rc2_inflate_ub. reflexivity.
Qed.
Lemma rc_negative_ub : forall junk_e junk_d key rounds, rounds = (-1)%Z \/ rounds = (-2)%Z ->
  (user_key 64 key -> bc_check (rc5 junk_e junk_d (Some rounds)) key = UB) /\
  (user_key 16 key -> bc_check (rc6_128 junk_e junk_d (Some rounds)) key = UB).
Proof.
  intros je jd key r Hr. split; intros (_ & _ & H); cbn [rc5 rc6_128 rc6 bc_check].
  - destruct (Nat.ltb_spec 64 (length key)); [lia|]. destruct Hr as [-> | ->]; reflexivity.
  - destruct (Nat.ltb_spec 16 (length key)); [lia|]. destruct Hr as [-> | ->]; reflexivity.
Qed.
Lemma present_ub : forall lw key, (128 < length key)%nat -> bc_check (present lw) key = UB.
Proof. intros lw key H. rewrite present_check. destruct (Nat.ltb_spec 128 (length key)); [reflexivity|lia]. Qed.
