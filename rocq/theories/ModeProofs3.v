From Verif Require Import Words TaskModel ModeModel ModeSpec EncSpec ModeProofs ModeProofs2 GfProofs.
Open Scope N_scope.
Ltac Zify.zify_post_hook ::= Z.div_mod_to_equations.

(* ------------------------------------------------------------ the tasks *)
Lemma run_plain : forall c pem rnd aad m a key iv inp p, lawful c -> acceptable_key c key ->
  m <> ModeNr -> m <> GCM -> iv_ok c m iv -> inp <> [] -> a = Encrypt \/ a = Decrypt ->
  meta_block_processing (bc_bs c) (bc_enc c key) (bc_dec c key) rnd a m iv inp = Some (Done p) ->
  block_cipher c pem rnd aad (user_task (bc_id c) m a key iv inp) =
    Done {| r_result := Success; r_out := Some p;
            r_iv := match m with ECB => iv | _ => repeat 0 (bc_bs c) end |}.
Proof.
  intros c pem rnd aad m a key iv inp p Hc Hk Hm Hg Hi Hin Ha Hp.
  unfold block_cipher. rewrite check_ok by (auto; tauto).
  cbn [t_mode t_action t_iv t_in user_task iv_bytes in_bytes key_bytes t_key].
  rewrite (proj2 (proj2 (proj2 Hk))). cbn [t_mode t_action t_iv t_in user_task iv_bytes in_bytes].
  rewrite Hp. destruct m; try congruence; destruct Ha as [->| ->]; reflexivity.
Qed.

Lemma encrypt_task : forall c pem rnd aad m key iv text, lawful c -> acceptable_key c key ->
  m <> ModeNr -> m <> GCM -> iv_ok c m iv -> octets text -> text <> [] -> (forall i, rnd i < 256) ->
  exists padded P p,
    x923_padded (bc_bs c) text padded /\ octets padded /\ in_blocks (bc_bs c) padded P /\
    block_cipher c pem rnd aad (user_task (bc_id c) m Encrypt key iv text) =
      Done {| r_result := Success; r_out := Some p;
              r_iv := match m with ECB => iv | _ => repeat 0 (bc_bs c) end |} /\
    p_out p = spec_mode m (bc_enc c key) iv P /\ p_out_size p = N.of_nat (length (p_out p)) /\
    p_ctr p = match m with CTR => Some (final_counter iv (length P)) | _ => None end.
Proof.
  intros c pem rnd aad m key iv text Hc Hk Hm Hg Hi Ho Hne Hr.
  pose proof Hc as [_ [_ [Hbs Hlaw]]]. specialize (Hlaw key Hk).
  destruct (meta_encrypt (bc_bs c) (bc_enc c key) (bc_dec c key) Hbs Hlaw rnd Hr m iv text Hm
              (proj1 Hi) (proj2 Hi) Ho Hne) as [padded [P [ctr [Hx [Hop [HP [Hrun Hctr]]]]]]].
  exists padded, P. eexists. split; [exact Hx|]. split; [exact Hop|]. split; [exact HP|].
  split; [eapply run_plain; eauto|]. cbn [p_out p_out_size p_ctr]. split; [reflexivity|].
  split; [reflexivity|]. rewrite Hctr. destruct m; congruence.
Qed.

Lemma spec_mode_nonempty : forall m bs E D iv P, (4 <= bs < 256)%nat -> inverse_on bs E D ->
  m <> ModeNr -> octets iv -> m = ECB \/ length iv = bs -> Forall (block_ok bs) P -> P <> [] ->
  spec_mode m E iv P <> [].
Proof.
  intros m bs E D iv P Hbs Hl Hm Hi Hil HP Hne H.
  destruct (spec_mode_blocks bs E D Hbs Hl m iv P Hm Hi Hil HP) as [Q [HQ [HQl [HQe _]]]].
  rewrite HQe in H. apply app_eq_nil in H. destruct H as [_ H].
  destruct P as [|p P]; [congruence|]. destruct Q as [|q Q]; [discriminate HQl|].
  inversion HQ as [|? ? [H1 _] ?]; subst. cbn in H. destruct q; cbn in *; [lia|discriminate].
Qed.

Lemma padded_nonempty : forall bs text padded P, x923_padded bs text padded -> in_blocks bs padded P -> P <> [].
Proof.
  intros bs text padded P [f [k [_ [_ [-> _]]]]] [Hc _] ->. cbn in Hc.
  symmetry in Hc. apply app_eq_nil in Hc. destruct Hc as [_ Hc]. destruct f; discriminate.
Qed.

Lemma padded_len : forall bs text padded, x923_padded bs text padded ->
  (length text < length padded <= length text + bs)%nat.
Proof.
  intros bs text padded [f [k [Hk [Hf [-> _]]]]]. rewrite !app_length. cbn [length]. lia.
Qed.

Lemma round_trip_task : forall c pem rnd rnd2 aad aad2 m key iv iv2 text, lawful c ->
  acceptable_key c key ->
  m <> ModeNr -> m <> GCM -> iv_ok c m iv -> iv_ok c m iv2 -> octets text -> text <> [] ->
  (forall i, rnd i < 256) -> N.of_nat (length text) + 256 < W64 ->
  exists p q iv' iv2',
    block_cipher c pem rnd aad (user_task (bc_id c) m Encrypt key iv text) =
      Done {| r_result := Success; r_out := Some p; r_iv := iv' |} /\
    p_out_size p = N.of_nat (length (p_out p)) /\
    block_cipher c pem rnd2 aad2 (user_task (bc_id c) m Decrypt key iv2 (p_out p)) =
      Done {| r_result := Success; r_out := Some q; r_iv := iv2' |} /\
    plaintext q = text /\ p_out_size q = N.of_nat (length text).
Proof.
  intros c pem rnd rnd2 aad aad2 m key iv iv2 text Hc Hk Hm Hg Hi Hi2 Ho Hne Hr Hw.
  destruct (encrypt_task c pem rnd aad m key iv text Hc Hk Hm Hg Hi Ho Hne Hr)
    as [padded [P [p [Hx [Hop [HP [Hrun [Hout [Hsz _]]]]]]]]].
  pose proof Hc as [_ [_ [Hbs Hlaw]]]. specialize (Hlaw key Hk).
  assert (Forall (block_ok (bc_bs c)) P) as HPok by (eapply blocks_ok_of; eauto).
  destruct (meta_decrypt (bc_bs c) (bc_enc c key) (bc_dec c key) Hbs Hlaw rnd2 m iv iv2 text padded P
              Hm (proj1 Hi) (proj2 Hi) Hop Hx HP) as [q [Hq [Hp1 [Hp2 _]]]].
  { pose proof (padded_len _ _ _ Hx). lia. }
  exists p, q. eexists. eexists. split; [exact Hrun|]. split; [exact Hsz|].
  rewrite Hout. split; [|split; [exact Hp1|exact Hp2]].
  apply run_plain; auto.
  eapply spec_mode_nonempty; eauto; [apply (proj1 Hi)|apply (proj2 Hi)|eapply padded_nonempty; eauto].
Qed.

(* ------------------------------------------------------------------ GHASH *)
Lemma be_val16 : forall l, octets l -> length l = 16%nat ->
  quad_ok (quad_of l) /\ qv (quad_of l) = be_val l.
Proof.
  intros l Ho Hl.
  do 16 (destruct l as [|? l]; [discriminate Hl|]). destruct l; [|discriminate Hl].
  unfold octets in Ho.
  repeat match goal with H : Forall _ (_ :: _) |- _ => inversion H; subst; clear H end.
  unfold quad_of, get_u32_be. cbn [nth Nat.add].
  rewrite !lor4_be_val by assumption. unfold quad_ok, qv, word, be_val. cbn [fold_left].
  split; [repeat split; lia|lia].
Qed.

Lemma put_u32_be_bytes : forall x, put_u32_be x = be_bytes 4 x.
Proof.
  intro x. unfold put_u32_be. cbn [be_bytes app].
  repeat match goal with |- context [N.land ?a 255] => rewrite (land_low a 8) by reflexivity end.
  rewrite !shiftr_div. rewrite !N.div_div by lia. reflexivity.
Qed.

Lemma be_bytes_app : forall n m x y, y < 256 ^ N.of_nat m ->
  be_bytes n x ++ be_bytes m y = be_bytes (n + m) (x * 256 ^ N.of_nat m + y).
Proof.
  intros n m. revert n. induction m as [|m IH]; intros n x y Hy.
  - change (256 ^ N.of_nat 0) with 1 in *. assert (y = 0) as -> by lia.
    cbn [be_bytes]. rewrite app_nil_r, Nat.add_0_r. f_equal. lia.
  - rewrite Nat.add_succ_r. cbn [be_bytes]. rewrite app_assoc, IH.
    + f_equal; [f_equal|f_equal].
      * rewrite Nat2N.inj_succ, N.pow_succ_r by lia.
        replace (x * (256 * 256 ^ N.of_nat m) + y) with (y + x * 256 ^ N.of_nat m * 256) by lia.
        rewrite N.div_add by lia. lia.
      * rewrite Nat2N.inj_succ, N.pow_succ_r by lia.
        replace (x * (256 * 256 ^ N.of_nat m) + y) with (y + x * 256 ^ N.of_nat m * 256) by lia.
        rewrite N.mod_add by lia. reflexivity.
    + rewrite Nat2N.inj_succ, N.pow_succ_r in Hy by lia. apply N.div_lt_upper_bound; lia.
Qed.

Lemma bytes_of_quad_val : forall q, quad_ok q -> bytes_of_quad q = be_bytes 16 (qv q).
Proof.
  intros [[[a b] c] d] [Ha [Hb [Hc Hd]]]. unfold bytes_of_quad, word in *. rewrite !put_u32_be_bytes.
  change (2 ^ 32) with (256 ^ N.of_nat 4) in *.
  rewrite (be_bytes_app 4 4 c d) by exact Hd. 
  assert (c * 256 ^ N.of_nat 4 + d < 256 ^ N.of_nat 8) as H1.
  { change (256 ^ N.of_nat 8) with (256 ^ N.of_nat 4 * 256 ^ N.of_nat 4). 
    change (256 ^ N.of_nat 4) with 4294967296 in *. lia. }
  rewrite be_bytes_app by exact H1.
  assert (b * 256 ^ N.of_nat (4 + 4) + (c * 256 ^ N.of_nat 4 + d) < 256 ^ N.of_nat 12) as H2.
  { change (256 ^ N.of_nat (4 + 4)) with (2 ^ 64). change (256 ^ N.of_nat 12) with (2 ^ 96).
    change (256 ^ N.of_nat 4) with (2 ^ 32) in *. lia. }
  rewrite be_bytes_app by exact H2. f_equal. unfold qv.
  change (256 ^ N.of_nat (4 + (4 + 4))) with (2 ^ 96). change (256 ^ N.of_nat (4 + 4)) with (2 ^ 64).
  change (256 ^ N.of_nat 4) with (2 ^ 32). lia.
Qed.

Lemma chunks_fuel_ok : forall fuel n (l : list N), (0 < n)%nat -> (length l <= fuel * n)%nat ->
  (length l mod n = 0)%nat -> octets l ->
  Forall (fun b => octets b /\ length b = n) (chunks_fuel fuel n l).
Proof.
  induction fuel as [|f IH]; intros n l Hn Hl Hm Ho.
  - constructor.
  - cbn [chunks_fuel]. destruct l as [|x l']; [constructor|].
    set (l := x :: l') in *.
    assert (n <= length l)%nat as Hle.
    { destruct (le_lt_dec n (length l)); [assumption|]. rewrite Nat.mod_small in Hm by assumption. discriminate Hm. }
    constructor.
    + split; [apply octets_firstn; exact Ho|rewrite firstn_length; lia].
    + apply IH; [exact Hn|rewrite skipn_length; nia| |apply octets_skipn; exact Ho].
      rewrite skipn_length.
      pose proof (Nat.div_mod (length l) n ltac:(lia)) as Hd.
      symmetry. apply (Nat.mod_unique _ _ (length l / n - 1)); [lia|]. nia.
Qed.

Lemma zpad_mod : forall l, (length (zpad16 l) mod 16 = 0)%nat.
Proof.
  intro l. unfold zpad16. rewrite app_length, repeat_length. lia.
Qed.
Lemma zpad_octets : forall l, octets l -> octets (zpad16 l).
Proof.
  intros l H. unfold zpad16, octets. apply Forall_app. split; [exact H|].
  apply Forall_forall. intros x Hx. apply repeat_spec in Hx. subst. lia.
Qed.

Lemma quads_val : forall l, octets l ->
  Forall quad_ok (quads l) /\ map qv (quads l) = map be_val (chunks 16 (zero_padded l)).
Proof.
  intros l Ho. unfold quads. change (zero_padded l) with (zpad16 l).
  assert (Forall (fun b => octets b /\ length b = 16%nat) (chunks 16 (zpad16 l))) as H.
  { unfold chunks. apply chunks_fuel_ok; [lia|lia|apply zpad_mod|apply zpad_octets; exact Ho]. }
  induction H as [|b bl [H1 H2] _ IH]; cbn [map]; [split; [constructor|reflexivity]|].
  destruct IH as [IH1 IH2]. destruct (be_val16 b H1 H2) as [H3 H4].
  split; [constructor; assumption|]. rewrite H4, IH2. reflexivity.
Qed.

Lemma sim_fold : forall (f : quad -> quad -> quad) (g : N -> N -> N),
  (forall x b, quad_ok x -> quad_ok b -> quad_ok (f x b) /\ qv (f x b) = g (qv x) (qv b)) ->
  forall l x, quad_ok x -> Forall quad_ok l ->
  quad_ok (fold_left f l x) /\ qv (fold_left f l x) = fold_left g (map qv l) (qv x).
Proof.
  intros f g Hfg l. induction l as [|b l IH]; intros x Hx Hl; [split; [exact Hx|reflexivity]|].
  inversion Hl as [|? ? Hb Hl']; subst. cbn [fold_left map].
  destruct (Hfg x b Hx Hb) as [G1 G2]. rewrite <- G2. apply IH; assumption.
Qed.

Lemma ghash_fold : forall h l x, quad_ok h -> quad_ok x -> Forall quad_ok l ->
  quad_ok (fold_left (fun X B => gf_mul (qxor X B) h) l x) /\
  qv (fold_left (fun X B => gf_mul (qxor X B) h) l x) =
  fold_left (fun x b => nist_mult (N.lxor x b) (qv h)) (map qv l) (qv x).
Proof.
  intros h l x Hh Hx Hl. apply sim_fold; [|exact Hx|exact Hl].
  intros y b Hy Hb.
  destruct (gf_mul_nist (qxor y b) h (qxor_ok y b Hy Hb) Hh) as [G1 G2].
  split; [exact G1|]. rewrite G2, qxor_val by assumption. reflexivity.
Qed.

Lemma len_block_ok : forall a c, quad_ok (len_block a c).
Proof.
  intros a c. unfold len_block, quad_ok, word, W64. rewrite !shiftr_div.
  rewrite !(land_low _ 24) by reflexivity. repeat split; lia.
Qed.
Lemma len_block_val : forall a c, a < 2 ^ 21 -> c < 2 ^ 21 ->
  qv (len_block a c) = 8 * a * 2 ^ 64 + 8 * c.
Proof.
  intros a c Ha Hc. unfold len_block, qv, W64. rewrite !shiftr_div, !N.shiftl_mul_pow2.
  rewrite !(land_low _ 24) by reflexivity. lia.
Qed.

Lemma ghash_nist : forall h a c, octets h -> length h = 16%nat -> octets a -> octets c ->
  N.of_nat (length a) < 2 ^ 21 -> N.of_nat (length c) < 2 ^ 21 ->
  ghash h a c = be_bytes 16 (nist_ghash (be_val h) a c).
Proof.
  intros h a c Hh Hhl Ha Hc Hal Hcl. unfold ghash, nist_ghash.
  destruct (be_val16 h Hh Hhl) as [Hq Hv].
  destruct (quads_val a Ha) as [Qa Va]. destruct (quads_val c Hc) as [Qc Vc].
  assert (quad_ok (0, 0, 0, 0)) as H0 by (unfold quad_ok, word; repeat split; lia).
  destruct (ghash_fold (quad_of h) (quads a ++ quads c ++ [len_block (N.of_nat (length a)) (N.of_nat (length c))])
     (0, 0, 0, 0) Hq H0) as [G1 G2].
  { apply Forall_app. split; [exact Qa|]. apply Forall_app. split; [exact Qc|].
    constructor; [apply len_block_ok|constructor]. }
  rewrite bytes_of_quad_val by exact G1. rewrite G2, Hv.
  rewrite !map_app, Va, Vc. cbn [map]. rewrite len_block_val by assumption. reflexivity.
Qed.

Lemma ghash_shape : forall h a c, octets h -> length h = 16%nat -> octets a -> octets c ->
  octets (ghash h a c) /\ length (ghash h a c) = 16%nat.
Proof.
  intros h a c Hh Hhl Ha Hc. unfold ghash.
  destruct (be_val16 h Hh Hhl) as [Hq Hv].
  destruct (quads_val a Ha) as [Qa Va]. destruct (quads_val c Hc) as [Qc Vc].
  assert (quad_ok (0, 0, 0, 0)) as H0 by (unfold quad_ok, word; repeat split; lia).
  destruct (ghash_fold (quad_of h) (quads a ++ quads c ++ [len_block (N.of_nat (length a)) (N.of_nat (length c))])
     (0, 0, 0, 0) Hq H0) as [G1 G2].
  { apply Forall_app. split; [exact Qa|]. apply Forall_app. split; [exact Qc|].
    constructor; [apply len_block_ok|constructor]. }
  rewrite bytes_of_quad_val by exact G1.
  split; [apply be_bytes_bytes|apply be_bytes_length].
Qed.

(* --------------------------------------------------------------------- GCM *)
(* the block function the tag is computed with *)
Definition tag_cipher (c : blockcipher) (key : list N) : list N -> list N :=
  match bc_gcm c with GcmCustom => bc_dec c key | _ => bc_enc c key end.

Lemma firstn_steps_ecb : forall bs f b bl, length (f b) = bs ->
  firstn bs (concat (spec_ecb f (b :: bl))) = f b.
Proof.
  intros bs f b bl H. cbn [spec_ecb map concat]. rewrite firstn_app, <- H, firstn_all, Nat.sub_diag.
  cbn [firstn]. apply app_nil_r.
Qed.

Lemma in_blocks_first : forall bs text padded P, (0 < bs)%nat -> length text = bs ->
  (exists r, padded = text ++ r) -> in_blocks bs padded P -> exists P', P = text :: P'.
Proof.
  intros bs text padded P Hb Hl [r ->] [Hc Hf].
  destruct P as [|b P]; [cbn in Hc; destruct text; cbn in *; [lia|discriminate]|].
  exists P. f_equal. inversion Hf as [|? ? Hbl _]; subst. cbn in Hc.
  assert (firstn (length b) (b ++ concat P) = firstn (length b) (text ++ r)) as H by (rewrite Hc; reflexivity).
  rewrite !firstn_app in H. rewrite firstn_all in H. rewrite Hbl in H. rewrite firstn_all in H.
  rewrite !Nat.sub_diag in H. cbn [firstn] in H. rewrite !app_nil_r in H. exact H.
Qed.

Lemma gcm_e_val : forall c key rnd x, lawful c -> acceptable_key c key ->
  bc_bs c = 16%nat -> bc_gcm c <> GcmNoSupport -> (forall i, rnd i < 256) -> octets x -> length x = 16%nat ->
  gcm_e (bc_bs c) (bc_enc c key) (bc_dec c key) rnd (bc_gcm c) x = Done (tag_cipher c key x).
Proof.
  intros c key rnd x Hc Hk Hbs Hg Hr Ho Hl.
  pose proof Hc as [_ [_ [Hb Hlaw]]]. specialize (Hlaw key Hk). rewrite Hbs in *.
  assert (x <> []) as Hne by (destruct x; [discriminate|congruence]).
  unfold gcm_e, tag_cipher.
  destruct (bc_gcm c); try congruence.
  - destruct (meta_encrypt 16 (bc_enc c key) (bc_dec c key) Hb Hlaw rnd Hr ECB [] x ltac:(discriminate)
      ltac:(constructor) ltac:(left; reflexivity) Ho Hne) as [pad [P [ctr [Hx [_ [HP [Hrun _]]]]]]].
    rewrite Hrun. cbn [p_out spec_mode].
    destruct (in_blocks_first 16 x pad P ltac:(lia) Hl) as [P' ->]; [|exact HP|].
    { destruct Hx as [f [k [_ [_ [-> _]]]]]. eauto. }
    f_equal. apply firstn_steps_ecb. apply (Hlaw x Ho Hl).
  - unfold meta_block_processing.
    destruct (x923_pad_padded 16 false rnd x ltac:(lia) Hne) as [pad [-> [Hx Hoct]]].
    assert (length pad mod 16 = 0)%nat as Hmod by (destruct Hx as [? [? [? [? [? ?]]]]]; assumption).
    destruct (in_blocks_exists 16 pad ltac:(lia) Hmod) as [P [HP HPl]].
    destruct (in_blocks_first 16 x pad P ltac:(lia) Hl) as [P' ->]; [|exact HP|].
    { destruct Hx as [f [k [_ [_ [-> _]]]]]. eauto. }
    destruct HP as [HPc HPf]. rewrite <- HPc. unfold mode_blocks, select.
    rewrite run_blocks_steps by (assumption || lia). rewrite steps_ecb. cbn [obind p_out].
    f_equal. apply firstn_steps_ecb. apply (Hlaw x Ho Hl).
Qed.

Lemma tag_cipher_shape : forall c key x, lawful c -> acceptable_key c key ->
  octets x -> length x = bc_bs c -> octets (tag_cipher c key x) /\ length (tag_cipher c key x) = bc_bs c.
Proof.
  intros c key x [_ [_ [Hb Hlaw]]] Hk Ho Hl. destruct (Hlaw key Hk x Ho Hl) as [_ [? ?]].
  unfold tag_cipher. destruct (bc_gcm c); assumption.
Qed.

(* the tag as a function of iv, aad and ciphertext, with the code's length block *)
Definition code_tag (F : list N -> list N) (aad iv c : list N) : list N :=
  xorl (ghash (F (repeat 0 16)) aad c) (F (ghash (F (repeat 0 16)) [] iv)).

Lemma zeros_octets : forall n, octets (repeat 0 n).
Proof. intro n. apply Forall_forall. intros x Hx. apply repeat_spec in Hx. subst. lia. Qed.

Lemma gcm_tag_val : forall c key rnd iv aad ct, lawful c -> acceptable_key c key ->
  bc_bs c = 16%nat -> bc_gcm c <> GcmNoSupport -> (forall i, rnd i < 256) ->
  octets iv -> length iv = 16%nat ->
  gcm_tag (bc_bs c) (bc_enc c key) (bc_dec c key) rnd (bc_gcm c) (iv ++ ct) aad =
    Done (code_tag (tag_cipher c key) aad iv ct).
Proof.
  intros c key rnd iv aad ct Hc Hk Hbs Hg Hr Ho Hl. unfold gcm_tag, code_tag.
  destruct (Nat.ltb_spec (length (iv ++ ct)) 16) as [H|_]; [rewrite app_length in H; lia|].
  rewrite (gcm_e_val c key rnd (repeat 0 16)) by (auto using zeros_octets). cbn [obind].
  rewrite firstn_app, <- Hl, firstn_all, Nat.sub_diag, firstn_O, app_nil_r.
  rewrite skipn_app, skipn_all, Nat.sub_diag. cbn [skipn app].
  destruct (tag_cipher_shape c key (repeat 0 (length iv)) Hc Hk (zeros_octets _)) as [Z1 Z2].
  { rewrite repeat_length. congruence. }
  destruct (ghash_shape (tag_cipher c key (repeat 0 (length iv))) [] iv Z1 ltac:(congruence)
              ltac:(constructor) Ho) as [G1 G2].
  rewrite gcm_e_val by auto. reflexivity.
Qed.

Lemma code_tag_spec : forall c key iv aad ct, lawful c -> acceptable_key c key ->
  bc_bs c = 16%nat -> octets iv -> length iv = 16%nat -> octets aad -> octets ct ->
  N.of_nat (length aad) < 2 ^ 21 -> N.of_nat (length ct) < 2 ^ 21 ->
  code_tag (tag_cipher c key) aad iv ct = gcm_tag_spec (tag_cipher c key) aad iv ct.
Proof.
  intros c key iv aad ct Hc Hk Hbs Ho Hl Ha Hct Hal Hcl. unfold code_tag, gcm_tag_spec.
  destruct (tag_cipher_shape c key (repeat 0 16) Hc Hk (zeros_octets _)) as [Z1 Z2].
  { rewrite repeat_length. congruence. }
  rewrite !ghash_nist; try assumption; try congruence; try (constructor).
  - apply xorl_xor_bytes.
  - rewrite Hl. reflexivity.
Qed.

Lemma code_tag_length : forall c key iv aad ct, lawful c -> acceptable_key c key ->
  bc_bs c = 16%nat -> octets iv -> length iv = 16%nat -> octets aad -> octets ct ->
  octets (code_tag (tag_cipher c key) aad iv ct) /\ length (code_tag (tag_cipher c key) aad iv ct) = 16%nat.
Proof.
  intros c key iv aad ct Hc Hk Hbs Ho Hl Ha Hct. unfold code_tag.
  destruct (tag_cipher_shape c key (repeat 0 16) Hc Hk (zeros_octets _)) as [Z1 Z2].
  { rewrite repeat_length. congruence. }
  rewrite Hbs in Z2.
  destruct (ghash_shape _ aad ct Z1 Z2 Ha Hct) as [G1 G2].
  destruct (ghash_shape _ [] iv Z1 Z2 ltac:(constructor) Ho) as [G3 G4].
  destruct (tag_cipher_shape c key _ Hc Hk G3 ltac:(congruence)) as [Y1 Y2].
  split; [apply xorl_bytes; assumption|]. rewrite xorl_length, G2, Y2, Hbs. reflexivity.
Qed.

Lemma gcm_encrypt_task : forall c pem rnd aad key iv text, lawful c -> acceptable_key c key ->
  bc_bs c = 16%nat -> bc_gcm c <> GcmNoSupport -> octets iv -> length iv = 16%nat ->
  octets text -> text <> [] -> (forall i, rnd i < 256) ->
  exists padded P p,
    x923_padded 16 text padded /\ octets padded /\ in_blocks 16 padded P /\
    block_cipher c pem rnd aad (user_task (bc_id c) GCM Encrypt key iv text) =
      Done {| r_result := Success; r_out := Some p; r_iv := repeat 0 16 |} /\
    p_out p = code_tag (tag_cipher c key) aad iv (concat (spec_ctr (bc_enc c key) iv P))
              ++ iv ++ concat (spec_ctr (bc_enc c key) iv P) /\
    p_out_size p = N.of_nat (length (p_out p)) /\
    p_ctr p = Some (final_counter iv (length P)).
Proof.
  intros c pem rnd aad key iv text Hc Hk Hbs Hg Hiv Hl Ho Hne Hr.
  pose proof Hc as [_ [_ [Hb Hlaw]]]. specialize (Hlaw key Hk).
  destruct (meta_encrypt (bc_bs c) (bc_enc c key) (bc_dec c key) Hb Hlaw rnd Hr GCM iv text
     ltac:(discriminate) Hiv ltac:(right; congruence) Ho Hne) as [pad [P [ctr [Hx [Hop [HP [Hrun Hctr]]]]]]].
  rewrite Hbs in Hx, HP.
  exists pad, P. eexists. split; [exact Hx|]. split; [exact Hop|]. split; [exact HP|].
  split; [|split; [|split]].
  - unfold block_cipher. rewrite check_ok; auto; [|discriminate|split; [exact Hiv|right; congruence]].
    cbn [t_mode t_action t_iv t_in user_task iv_bytes in_bytes key_bytes t_key].
    rewrite (proj2 (proj2 (proj2 Hk))). cbn [t_mode t_action t_iv t_in user_task iv_bytes in_bytes].
    rewrite Hrun. cbn [obind p_out spec_mode]. unfold gcm_auth.
    rewrite gcm_tag_val by assumption. cbn [obind]. rewrite Hbs.
    destruct (bc_gcm c); try congruence; reflexivity.
  - reflexivity.
  - reflexivity.
  - cbn [p_ctr]. exact Hctr.
Qed.

(* decryption of tag ++ iv ++ ct: verified before anything is released *)
Lemma gcm_decrypt_task : forall c pem rnd aad key iv2 tag iv ct, lawful c -> acceptable_key c key ->
  bc_bs c = 16%nat -> bc_gcm c <> GcmNoSupport -> octets iv -> length iv = 16%nat ->
  octets iv2 -> length iv2 = 16%nat -> length tag = 16%nat -> (forall i, rnd i < 256) ->
  block_cipher c pem rnd aad (user_task (bc_id c) GCM Decrypt key iv2 (tag ++ iv ++ ct)) =
    if eqb_list (code_tag (tag_cipher c key) aad iv ct) tag
    then match meta_block_processing 16 (bc_enc c key) (bc_dec c key) rnd Decrypt GCM iv2 (iv ++ ct) with
         | None => Done {| r_result := ProcessError; r_out := None; r_iv := iv2 |}
         | Some o => obind o (fun p => Done {| r_result := Success; r_out := Some p; r_iv := repeat 0 16 |})
         end
    else Done {| r_result := GMACError; r_out := None; r_iv := iv2 |}.
Proof.
  intros c pem rnd aad key iv2 tag iv ct Hc Hk Hbs Hg Hiv Hl Hiv2 Hl2 Ht Hr.
  unfold block_cipher. rewrite check_ok; auto.
  2: discriminate.
  2: { split; [exact Hiv2|right; congruence]. }
  2: { destruct tag; discriminate. }
  cbn [t_mode t_action t_iv t_in user_task iv_bytes in_bytes key_bytes t_key].
  rewrite (proj2 (proj2 (proj2 Hk))). cbn [t_mode t_action t_iv t_in user_task iv_bytes in_bytes].
  assert (gcm_verify (bc_bs c) (bc_enc c key) (bc_dec c key) rnd (bc_gcm c) (tag ++ iv ++ ct) aad =
          if eqb_list (code_tag (tag_cipher c key) aad iv ct) tag
          then Done (Success, iv ++ ct) else Done (GMACError, tag ++ iv ++ ct)) as Hv.
  { unfold gcm_verify.
    destruct (Nat.ltb_spec (length (tag ++ iv ++ ct)) 16) as [H|_]; [rewrite app_length in H; lia|].
    rewrite skipn_app, skipn_all2, Ht, Nat.sub_diag by lia. cbn [skipn app].
    rewrite firstn_app, Ht, Nat.sub_diag, firstn_O, app_nil_r.
    rewrite firstn_all2 by lia.
    rewrite gcm_tag_val by assumption. reflexivity. }
  rewrite Hv. rewrite Hbs.
  destruct (bc_gcm c); try congruence; destruct (eqb_list _ _); cbn [obind]; reflexivity.
Qed.

Lemma eqb_list_refl : forall l, eqb_list l l = true.
Proof. intro l. apply eqb_list_eq. reflexivity. Qed.

Lemma gcm_round_trip : forall c pem rnd rnd2 aad key iv iv2 text, lawful c -> acceptable_key c key ->
  bc_bs c = 16%nat -> bc_gcm c <> GcmNoSupport -> octets iv -> length iv = 16%nat ->
  octets iv2 -> length iv2 = 16%nat -> octets aad ->
  octets text -> text <> [] -> (forall i, rnd i < 256) -> (forall i, rnd2 i < 256) ->
  N.of_nat (length text) + 256 < W64 ->
  exists p q iv' iv2',
    block_cipher c pem rnd aad (user_task (bc_id c) GCM Encrypt key iv text) =
      Done {| r_result := Success; r_out := Some p; r_iv := iv' |} /\
    p_out_size p = N.of_nat (length (p_out p)) /\
    block_cipher c pem rnd2 aad (user_task (bc_id c) GCM Decrypt key iv2 (p_out p)) =
      Done {| r_result := Success; r_out := Some q; r_iv := iv2' |} /\
    plaintext q = text /\ p_out_size q = N.of_nat (length text).
Proof.
  intros c pem rnd rnd2 aad key iv iv2 text Hc Hk Hbs Hg Hiv Hl Hiv2 Hl2 Ha Ho Hne Hr Hr2 Hw.
  destruct (gcm_encrypt_task c pem rnd aad key iv text Hc Hk Hbs Hg Hiv Hl Ho Hne Hr)
    as [padded [P [p [Hx [Hop [HP [Hrun [Hout [Hsz _]]]]]]]]].
  pose proof Hc as [_ [_ [Hb Hlaw]]]. specialize (Hlaw key Hk). rewrite Hbs in Hlaw.
  assert (Forall (block_ok 16) P) as HPok by (eapply blocks_ok_of; eauto).
  destruct (spec_mode_blocks 16 (bc_enc c key) (bc_dec c key) ltac:(lia) Hlaw GCM iv P
     ltac:(discriminate) Hiv ltac:(right; congruence) HPok) as [Q [HQ [HQl [HQe HQd]]]].
  assert (octets (concat (spec_ctr (bc_enc c key) iv P))) as Hoc.
  { rewrite <- HQd. apply (blocks_octs 16). exact HQ. }
  destruct (meta_decrypt 16 (bc_enc c key) (bc_dec c key) ltac:(lia) Hlaw rnd2 GCM iv iv2 text padded P
              ltac:(discriminate) Hiv ltac:(right; congruence) Hop Hx HP) as [q [Hq [Hp1 [Hp2 _]]]].
  { pose proof (padded_len _ _ _ Hx). lia. }
  exists p, q. eexists. eexists. split; [exact Hrun|]. split; [exact Hsz|].
  split; [|split; [exact Hp1|exact Hp2]].
  rewrite Hout. rewrite gcm_decrypt_task; auto.
  2: { apply code_tag_length; auto. }
  rewrite eqb_list_refl. change (iv ++ concat (spec_ctr (bc_enc c key) iv P)) with (spec_mode GCM (bc_enc c key) iv P).
  rewrite Hq. reflexivity.
Qed.
