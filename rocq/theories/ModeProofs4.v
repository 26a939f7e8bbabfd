From Verif Require Import Words TaskModel ModeModel ModeSpec EncSpec ModeProofs ModeProofs2 ModeProofs3 GfProofs.
Open Scope N_scope.
Ltac Zify.zify_post_hook ::= Z.div_mod_to_equations.

(* ----------------------------------------------------------- task check *)
Lemma present_iff : forall b n, present b n = true <-> (exists k, b = Some k) /\ n <> 0.
Proof.
  intros [l|] n; cbn; split.
  - intro H. apply negb_true_iff, N.eqb_neq in H. eauto.
  - intros [_ H]. apply negb_true_iff, N.eqb_neq. exact H.
  - discriminate.
  - intros [[k H] _]. discriminate.
Qed.

Definition some_b (b : option (list N)) : bool := match b with Some _ => true | None => false end.
Lemma some_b_iff : forall b, some_b b = true <-> exists l, b = Some l.
Proof. intros [l|]; cbn; split; eauto; [discriminate|intros [? ?]; discriminate]. Qed.

Lemma block_check_iff : forall pem t, is_block_cipher (t_cipher t) = true ->
  task_check pem t = Success <-> valid_block_task t.
Proof.
  intros pem t Hb. unfold valid_block_task, task_check.
  destruct (present (t_key t) (t_key_size t)) eqn:Hk.
  2: { cbn [negb]. split; [discriminate|]. intros [H1 [H2 _]].
       rewrite (proj2 (present_iff _ _) (conj H1 H2)) in Hk. discriminate. }
  apply present_iff in Hk. destruct Hk as [Hk1 Hk2]. cbn [negb].
  assert (present (t_in t) (t_in_size t) = true <-> (exists i, t_in t = Some i) /\ t_in_size t <> 0) as Hin
    by apply present_iff.
  assert (check_iv_data t = true <-> (exists iv, t_iv t = Some iv) /\ t_iv_size t = iv_len (t_cipher t)) as Hiv.
  { unfold check_iv_data. rewrite <- some_b_iff.
    destruct (t_cipher t); cbn in Hb; try discriminate Hb; cbn [cipher_in existsb cipher_id_beq orb negb andb iv_len];
    rewrite ?andb_true_r; destruct (t_iv t); cbn [orb some_b];
    repeat match goal with |- context [?x =? ?y] => destruct (N.eqb_spec x y) end;
    split; intros; try discriminate; try tauto; try lia; try (destruct H; congruence); try (destruct H; lia);
    try (split; [reflexivity|assumption]). }
  assert (cipher_in (t_cipher t) [NOEKEON; NOEKEOND] && (16 <? t_key_size t) = false <->
          (t_cipher t = NOEKEON \/ t_cipher t = NOEKEOND -> t_key_size t <= 16)) as Hno.
  { destruct (N.ltb_spec 16 (t_key_size t)) as [H|H].
    - rewrite andb_true_r. destruct (t_cipher t); cbn; split; intro H1; try reflexivity;
        try discriminate H1; try (intros [H2|H2]; discriminate H2);
        exfalso; specialize (H1 ltac:(auto)); lia.
    - rewrite andb_false_r. split; auto. }
  set (noe := cipher_in (t_cipher t) [NOEKEON; NOEKEOND] && (16 <? t_key_size t)) in *.
  match goal with |- ?X = Success <-> _ => assert (X =
    if cmode_beq (t_mode t) ModeNr then InvalidParams
    else if noe then KeyError
    else if (match t_mode t with CBC | OFB | CTR | GCM => true | _ => false end) && negb (check_iv_data t) then InvalidParams
    else if negb (match t_action t with Encrypt | Decrypt | EncryptWithoutRandomPad => true | _ => false end) then InvalidParams
    else if negb (present (t_in t) (t_in_size t)) then InvalidParams
    else Success) as -> end.
  { destruct (t_cipher t); cbn in Hb; try discriminate Hb;
    cbn [cipher_id_beq cipher_in existsb negb andb orb]; rewrite ?orb_false_r; reflexivity. }
  assert (t_action t = Encrypt \/ t_action t = Decrypt \/ t_action t = EncryptWithoutRandomPad <->
    match t_action t with Encrypt | Decrypt | EncryptWithoutRandomPad => true | _ => false end = true) as Hact.
  { destruct (t_action t); split; intro H; try reflexivity; try discriminate H; auto;
      destruct H as [H|[H|H]]; discriminate H. }
  rewrite Hact. clear Hact Hb. rewrite <- Hno, <- Hin, <- Hiv.
  generalize (match t_action t with Encrypt | Decrypt | EncryptWithoutRandomPad => true | _ => false end).
  intro aok. generalize (check_iv_data t). intro ivok. generalize (present (t_in t) (t_in_size t)). intro inok.
  clear Hin Hiv Hno. clearbody noe.
  destruct (t_mode t); cbn [cmode_beq andb]; destruct noe, aok, ivok, inok; cbn [negb andb];
    (split; [intro H; try discriminate H; repeat split; auto; intro; congruence|]);
    intros [H1 [H2 [H3 [H4 [H5 [H6 H7]]]]]]; try reflexivity; try congruence;
    exfalso; try (specialize (H4 ltac:(discriminate))); congruence.
Qed.

Lemma stream_check_iff : forall pem t, t_cipher t = ARC4 \/ t_cipher t = SEAL \/ t_cipher t = SALSA20 \/ t_cipher t = CHACHA20 ->
  task_check pem t = Success <-> valid_stream_task t.
Proof.
  intros pem t Hc. unfold valid_stream_task, task_check, check_iv_data.
  destruct (present (t_key t) (t_key_size t)) eqn:Hk.
  2: { cbn [negb]. split; [discriminate|]. intros [H1 [H2 _]].
       rewrite (proj2 (present_iff _ _) (conj H1 H2)) in Hk. discriminate. }
  apply present_iff in Hk. destruct Hk as [Hk1 Hk2]. cbn [negb].
  assert (present (t_in t) (t_in_size t) = true <-> (exists i, t_in t = Some i) /\ t_in_size t <> 0) as Hin
    by apply present_iff.
  destruct (present (t_in t) (t_in_size t)).
  - destruct (proj1 Hin eq_refl) as [Hi1 Hi2].
    destruct Hc as [->|[->|[->| ->]]]; cbn [cipher_id_beq cipher_in existsb negb andb orb iv_len cmode_beq];
      rewrite ?andb_false_r; rewrite ?orb_true_r; cbn [andb negb].
    + split; auto. intros _. split; [exact Hk1|]. split; [exact Hk2|]. split; [|auto].
      intros [H|[H|H]]; discriminate H.
    + split; auto. intros _. split; [exact Hk1|]. split; [exact Hk2|]. split; [|auto].
      intros [H|[H|H]]; discriminate H.
    + destruct (t_iv t) as [iv|].
      * destruct (N.eqb_spec (t_iv_size t) 8) as [E|E]; cbn [negb]; split; intro H; try reflexivity; try discriminate H.
        -- repeat split; auto. intros _. right. eauto.
        -- destruct H as [_ [_ [H _]]]. destruct (H ltac:(auto)) as [[H1 _]|[_ H1]]; congruence.
      * destruct (N.eqb_spec (t_iv_size t) 0) as [E|E]; cbn [negb]; split; intro H; try reflexivity; try discriminate H.
        -- repeat split; auto.
        -- destruct H as [_ [_ [H _]]]. destruct (H ltac:(auto)) as [[_ H1]|[[? H1] _]]; congruence.
    + destruct (t_iv t) as [iv|].
      * destruct (N.eqb_spec (t_iv_size t) 12) as [E|E]; cbn [negb]; split; intro H; try reflexivity; try discriminate H.
        -- repeat split; auto. intros _. right. eauto.
        -- destruct H as [_ [_ [H _]]]. destruct (H ltac:(auto)) as [[H1 _]|[_ H1]]; congruence.
      * destruct (N.eqb_spec (t_iv_size t) 0) as [E|E]; cbn [negb]; split; intro H; try reflexivity; try discriminate H.
        -- repeat split; auto.
        -- destruct H as [_ [_ [H _]]]. destruct (H ltac:(auto)) as [[_ H1]|[[? H1] _]]; congruence.
  - cbn [negb]. split.
    + intro H. repeat match type of H with (if ?b then _ else _) = _ => destruct b; try discriminate H end.
    + intros [_ [_ [_ [H1 H2]]]]. rewrite (proj2 Hin (conj H1 H2)) in *. 
      exfalso. assert (false = true) by tauto. discriminate.
Qed.

(* ---------------------------------------------------- AAD length confusion *)
Lemma chunks_fuel_enough : forall n f g (l : list N), (0 < n)%nat -> (length l <= f)%nat -> (length l <= g)%nat ->
  chunks_fuel f n l = chunks_fuel g n l.
Proof.
  intros n f. induction f as [|f IH]; intros g l Hn Hf Hg.
  - destruct l; [|cbn in Hf; lia]. destruct g; reflexivity.
  - destruct g as [|g]; [destruct l; [reflexivity|cbn in Hg; lia]|].
    cbn [chunks_fuel]. destruct l as [|x l]; [reflexivity|]. f_equal.
    apply IH; [exact Hn|rewrite skipn_length; cbn [length] in *; lia|rewrite skipn_length; cbn [length] in *; lia].
Qed.

Lemma chunks_app : forall n k (l1 l2 : list N), (0 < n)%nat -> length l1 = (n * k)%nat ->
  chunks n (l1 ++ l2) = chunks n l1 ++ chunks n l2.
Proof.
  intros n k. induction k as [|k IH]; intros l1 l2 Hn Hl.
  - destruct l1; [reflexivity|cbn in Hl; lia].
  - assert (n <= length l1)%nat as Hle by lia.
    assert (forall l : list N, l <> [] -> chunks n l = firstn n l :: chunks n (skipn n l)) as Hunf.
    { intros l H. destruct l as [|x l]; [congruence|]. unfold chunks at 1. cbn [length chunks_fuel].
      f_equal. apply chunks_fuel_enough; [exact Hn| |lia].
      rewrite skipn_length. cbn [length]. lia. }
    assert (l1 <> []) as Hne by (destruct l1; cbn in *; [lia|congruence]).
    rewrite (Hunf (l1 ++ l2)) by (destruct l1; [congruence|discriminate]).
    rewrite (Hunf l1) by exact Hne.
    rewrite firstn_app, skipn_app.
    replace (n - length l1)%nat with 0%nat by lia. cbn [firstn skipn]. rewrite app_nil_r.
    rewrite IH by (try rewrite skipn_length; lia). reflexivity.
Qed.

Lemma zpad_aligned : forall l k, length l = (16 * k)%nat -> zpad16 l = l.
Proof.
  intros l k H. unfold zpad16. rewrite H. replace ((16 - (16 * k) mod 16) mod 16)%nat with 0%nat by lia.
  cbn. apply app_nil_r.
Qed.

Lemma zpad_app : forall l1 l2 k, length l1 = (16 * k)%nat -> zpad16 (l1 ++ l2) = l1 ++ zpad16 l2.
Proof.
  intros l1 l2 k H. unfold zpad16. rewrite app_length, H, <- app_assoc.
  replace ((16 * k + length l2) mod 16)%nat with (length l2 mod 16)%nat by lia. reflexivity.
Qed.

Lemma quads_app : forall l1 l2 k, length l1 = (16 * k)%nat -> quads (l1 ++ l2) = quads l1 ++ quads l2.
Proof.
  intros l1 l2 k H. unfold quads. rewrite (zpad_app l1 l2 k H), (zpad_aligned l1 k H).
  rewrite (chunks_app 16 k) by (auto; lia). apply map_app.
Qed.

Lemma len_block_shift : forall a c, a + 2 ^ 21 < 2 ^ 29 -> c + 2 ^ 21 < 2 ^ 29 ->
  len_block (a + 2 ^ 21) c = len_block a (c + 2 ^ 21).
Proof.
  intros a c Ha Hc. unfold len_block, W64. rewrite !shiftr_div, !N.shiftl_mul_pow2.
  rewrite !(land_low _ 24) by reflexivity.
  apply f_equal2; [apply f_equal2; [apply f_equal2|]|]; lia.
Qed.

Lemma ghash_confusion : forall h A X C k, length A = (16 * k)%nat -> N.of_nat (length X) = 2 ^ 21 ->
  N.of_nat (length A) + 2 ^ 21 < 2 ^ 29 -> N.of_nat (length C) + 2 ^ 21 < 2 ^ 29 ->
  ghash h (A ++ X) C = ghash h A (X ++ C).
Proof.
  intros h A X C k HA HX Ha Hc. unfold ghash. f_equal. f_equal.
  assert (length X = 16 * N.to_nat (2 ^ 17))%nat as HX'.
  { apply Nat2N.inj. rewrite HX, Nat2N.inj_mul, N2Nat.id. reflexivity. }
  rewrite (quads_app A X k HA), (quads_app X C _ HX'), <- !app_assoc.
  rewrite !app_length, !Nat2N.inj_add, HX. rewrite len_block_shift by assumption.
  rewrite (N.add_comm (2 ^ 21)). reflexivity.
Qed.

Lemma code_tag_confusion : forall F A X iv C k, length A = (16 * k)%nat -> N.of_nat (length X) = 2 ^ 21 ->
  N.of_nat (length A) + 2 ^ 21 < 2 ^ 29 -> N.of_nat (length C) + 2 ^ 21 < 2 ^ 29 ->
  code_tag F (A ++ X) iv C = code_tag F A iv (X ++ C).
Proof. intros. unfold code_tag. rewrite (ghash_confusion _ A X C k) by assumption. reflexivity. Qed.

Lemma aligned_blocks_run : forall c key rnd iv2 iv ct, lawful c -> acceptable_key c key ->
  bc_bs c = 16%nat -> octets iv -> length iv = 16%nat -> (length ct mod 16 = 0)%nat -> ct <> [] ->
  exists p, meta_block_processing 16 (bc_enc c key) (bc_dec c key) rnd Decrypt GCM iv2 (iv ++ ct) = Some (Done p).
Proof.
  intros c key rnd iv2 iv ct Hc Hk Hbs Hiv Hl Hm Hne. unfold meta_block_processing.
  destruct (Nat.ltb_spec (length (iv ++ ct)) 16) as [H|_]; [rewrite app_length in H; lia|].
  rewrite firstn_app, <- Hl, firstn_all, Nat.sub_diag, firstn_O, app_nil_r.
  rewrite skipn_app, skipn_all, Nat.sub_diag. cbn [skipn app].
  unfold mode_blocks, select.
  destruct (in_blocks_exists 16 ct ltac:(lia) Hm) as [P [[HPc HPf] HPl]].
  rewrite <- HPc, Hl. rewrite run_blocks_steps by (auto; lia). cbn [obind].
  destruct (steps (ctr_step (bc_enc c key)) iv P) as [s o] eqn:Es.
  assert (o <> []) as Ho.
  { destruct P as [|b P]; [cbn in HPc; congruence|]. cbn [steps ctr_step] in Es.
    destruct (steps _ _ P) as [s' o']. intros ->.
    assert (xorl b (bc_enc c key iv) ++ o' = []) as E by congruence.
    apply app_eq_nil in E. destruct E as [E _]. apply (f_equal (@length N)) in E.
    inversion HPf; subst. pose proof Hc as [_ [_ [_ Hlaw]]].
    destruct (Hlaw key Hk iv Hiv ltac:(congruence)) as [_ [[_ E1] _]].
    rewrite xorl_length in E. cbn [length] in E. lia. }
  destruct (rev o) as [|k r] eqn:Er.
  { exfalso. apply Ho. rewrite <- (rev_involutive o), Er. reflexivity. }
  unfold drop_pad. rewrite Er. eauto.
Qed.

Lemma spec_ctr_len : forall bs E D iv P, (4 <= bs < 256)%nat -> inverse_on bs E D -> octets iv -> length iv = bs ->
  Forall (block_ok bs) P -> length (concat (spec_ctr E iv P)) = (bs * length P)%nat /\ octets (concat (spec_ctr E iv P)).
Proof.
  intros bs E D iv P Hb Hlaw Hiv Hl HP.
  destruct (spec_mode_blocks bs E D Hb Hlaw CTR iv P ltac:(discriminate) Hiv ltac:(auto) HP)
    as [Q [HQ [HQl [_ HQd]]]].
  rewrite <- HQd. split; [|apply (blocks_octs bs); exact HQ].
  rewrite (concat_length_blocks bs), HQl; [reflexivity|]. apply blocks_lens. exact HQ.
Qed.

(* an encryption under AAD A ++ X is accepted as X ++ C under AAD A *)
Lemma gcm_forgery : forall c pem rnd rnd2 key iv iv2 A X text k, lawful c -> acceptable_key c key ->
  bc_bs c = 16%nat -> bc_gcm c <> GcmNoSupport -> octets iv -> length iv = 16%nat ->
  octets iv2 -> length iv2 = 16%nat -> octets text -> text <> [] ->
  (forall i, rnd i < 256) -> (forall i, rnd2 i < 256) ->
  octets A -> octets X ->
  length A = (16 * k)%nat -> N.of_nat (length X) = 2 ^ 21 ->
  N.of_nat (length A) + 2 ^ 21 < 2 ^ 29 -> N.of_nat (length text) + 16 + 2 ^ 21 < 2 ^ 29 ->
  exists tag ct p q v1 v2,
    p_out p = tag ++ iv ++ ct /\ length tag = 16%nat /\
    block_cipher c pem rnd (A ++ X) (user_task (bc_id c) GCM Encrypt key iv text) =
      Done {| r_result := Success; r_out := Some p; r_iv := v1 |} /\
    block_cipher c pem rnd2 A (user_task (bc_id c) GCM Decrypt key iv2 (tag ++ iv ++ X ++ ct)) =
      Done {| r_result := Success; r_out := Some q; r_iv := v2 |}.
Proof.
  intros c pem rnd rnd2 key iv iv2 A X text k Hc Hk Hbs Hg Hiv Hl Hiv2 Hl2 Ho Hne Hr Hr2 HoA HoX HA HX HAl Hcl.
  destruct (gcm_encrypt_task c pem rnd (A ++ X) key iv text Hc Hk Hbs Hg Hiv Hl Ho Hne Hr)
    as [padded [P [p [Hx [Hop [HP [Hrun [Hout [Hsz _]]]]]]]]].
  pose proof Hc as [_ [_ [Hb Hlaw]]]. specialize (Hlaw key Hk). rewrite Hbs in Hlaw.
  assert (Forall (block_ok 16) P) as HPok by (eapply blocks_ok_of; eauto).
  destruct (spec_ctr_len 16 _ _ iv P ltac:(lia) Hlaw Hiv Hl HPok) as [HL HO].
  set (ct := concat (spec_ctr (bc_enc c key) iv P)) in *.
  assert (length ct = length padded) as Hlp.
  { destruct HP as [HPc HPf]. rewrite HL, <- HPc, (concat_length_blocks 16) by exact HPf. reflexivity. }
  pose proof (padded_len _ _ _ Hx) as Hpl.
  assert (N.of_nat (length ct) + 2 ^ 21 < 2 ^ 29) as Hctl by lia.
  assert (length X = 16 * N.to_nat (2 ^ 17))%nat as HX'.
  { apply Nat2N.inj. rewrite HX, Nat2N.inj_mul, N2Nat.id. reflexivity. }
  destruct (aligned_blocks_run c key rnd2 iv2 iv (X ++ ct) Hc Hk Hbs Hiv Hl) as [q Hq].
  { rewrite app_length, HX', HL. lia. }
  { destruct X; [cbn in HX; lia|discriminate]. }
  eexists. exists ct, p, q. eexists. eexists.
  split; [exact Hout|]. split; [apply code_tag_length; auto; apply Forall_app; split; assumption|].
  split; [exact Hrun|].
  rewrite gcm_decrypt_task; auto.
  2: { apply code_tag_length; auto. apply Forall_app; split; assumption. }
  rewrite (code_tag_confusion _ A X iv ct k HA HX HAl Hctl), eqb_list_refl, Hq. reflexivity.
Qed.

(* ------------------------------------------------- untrusted ciphertexts *)
Lemma ecb_ragged_ub : forall c pem rnd aad key inp, lawful c -> acceptable_key c key ->
  inp <> [] -> (length inp mod bc_bs c <> 0)%nat ->
  block_cipher c pem rnd aad (user_task (bc_id c) ECB Decrypt key [] inp) = UB.
Proof.
  intros c pem rnd aad key inp Hc Hk Hne Hm.
  unfold block_cipher. rewrite check_ok; auto.
  2: discriminate.
  2: { split; [constructor|left; reflexivity]. }
  cbn [t_mode t_action t_iv t_in user_task iv_bytes in_bytes key_bytes t_key].
  rewrite (proj2 (proj2 (proj2 Hk))). cbn [t_mode t_action t_iv t_in user_task iv_bytes in_bytes].
  unfold meta_block_processing, mode_blocks, select.
  assert (0 < bc_bs c)%nat as Hb by (destruct Hc as [_ [_ [Hb _]]]; lia).
  assert (forall fuel l, (length l <= fuel)%nat -> (length l mod bc_bs c <> 0)%nat ->
     blocks_loop (ecb_step (bc_dec c key)) (bc_bs c) fuel tt l = UB) as H.
  { induction fuel as [|f IH]; intros l Hl Hml.
    - destruct l; [|cbn in Hl; lia]. cbn [length] in Hml. rewrite Nat.mod_0_l in Hml by lia. congruence.
    - cbn [blocks_loop]. destruct l as [|x l]; [cbn [length] in Hml; rewrite Nat.mod_0_l in Hml by lia; congruence|].
      destruct (Nat.ltb_spec (length (x :: l)) (bc_bs c)) as [H|H]; [reflexivity|].
      cbn [ecb_step]. rewrite IH; [reflexivity| |].
      + rewrite skipn_length. cbn [length] in *. lia.
      + rewrite skipn_length. intro E. apply Hml.
        pose proof (Nat.div_mod (length (x :: l) - bc_bs c) (bc_bs c) ltac:(lia)) as Hd.
        symmetry. apply (Nat.mod_unique _ _ (S ((length (x :: l) - bc_bs c) / bc_bs c))); [lia|].
        rewrite E in Hd. lia. }
  unfold run_blocks. rewrite H by auto. reflexivity.
Qed.

Lemma ecb_bad_pad : forall c pem rnd aad key, lawful c -> acceptable_key c key ->
  exists inp p v, octets inp /\ length inp = bc_bs c /\
    block_cipher c pem rnd aad (user_task (bc_id c) ECB Decrypt key [] inp) =
      Done {| r_result := Success; r_out := Some p; r_iv := v |} /\
    N.of_nat (length (p_out p)) < p_out_size p.
Proof.
  intros c pem rnd aad key Hc Hk. pose proof Hc as [_ [_ [Hb Hlaw]]]. specialize (Hlaw key Hk).
  destruct (Nat.eq_dec (bc_bs c) 255) as [E255|N255].
  - (* no library cipher has a 255-byte block; iv_len excludes it *)
    exfalso. destruct Hc as [Hb1 [Hb2 _]]. rewrite E255 in Hb2.
    destruct (bc_id c); cbn in Hb2; discriminate.
  - set (x := repeat 0 (bc_bs c - 1) ++ [255]).
    assert (octets x) as Hx.
    { apply Forall_app. split; [apply zeros_octets|]. constructor; [lia|constructor]. }
    assert (length x = bc_bs c) as Hxl.
    { unfold x. rewrite app_length, repeat_length. cbn [length]. lia. }
    destruct (Hlaw x Hx Hxl) as [Hd [[He1 He2] _]].
    exists (bc_enc c key x). eexists. exists [].
    split; [exact He1|]. split; [exact He2|]. split.
    + apply run_plain; auto; try discriminate.
      * split; [constructor|left; reflexivity].
      * intro E. rewrite E in He2. cbn in He2. lia.
      * unfold meta_block_processing, mode_blocks, select.
        replace (bc_enc c key x) with (concat [bc_enc c key x]) by (cbn; apply app_nil_r).
        rewrite run_blocks_steps; [|lia|constructor; [exact He2|constructor]].
        cbn [steps ecb_step obind app]. rewrite app_nil_r, Hd. unfold drop_pad.
        unfold x at 1. rewrite rev_app_distr. cbn [rev app]. reflexivity.
    + cbn [p_out p_out_size]. rewrite app_length. cbn [length].
      assert (length (removelast x) = bc_bs c - 1)%nat as Hrl.
      { unfold x. rewrite removelast_app by discriminate. cbn. rewrite app_nil_r. apply repeat_length. }
      rewrite Hrl, Hxl. unfold W64. lia.
Qed.

(* ------------------------------------------------------- IV after a run *)
Lemma setup_keeps_iv : forall c newiv key m t iv, t_iv t = Some iv ->
  t_iv (cipher_setup c newiv key m None t) = Some iv /\
  t_iv_size (cipher_setup c newiv key m None t) = t_iv_size t.
Proof.
  intros c newiv key m t iv H. unfold cipher_setup. rewrite H. destruct m; split; reflexivity.
Qed.
