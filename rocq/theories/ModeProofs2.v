From Verif Require Import Words TaskModel ModeModel ModeSpec EncSpec ModeProofs.
Open Scope N_scope.
Ltac Zify.zify_post_hook ::= Z.div_mod_to_equations.

Definition iv_ok (c : blockcipher) (m : cmode) (iv : list N) : Prop :=
  octets iv /\ (m = ECB \/ length iv = bc_bs c).

Lemma length_nonnil : forall (A : Type) (l : list A), l <> [] -> N.of_nat (length l) =? 0 = false.
Proof. intros A [|x l] H; [congruence|]. apply N.eqb_neq. cbn [length]. lia. Qed.

Lemma check_ok : forall c pem m a key iv inp, lawful c -> acceptable_key c key ->
  m <> ModeNr -> iv_ok c m iv -> inp <> [] ->
  a = Encrypt \/ a = Decrypt \/ a = EncryptWithoutRandomPad ->
  task_check pem (user_task (bc_id c) m a key iv inp) = Success.
Proof.
  intros c pem m a key iv inp [Hb [Hl [Hs _]]] [Hk [_ [Hn _]]] Hm [_ Hi] Hin Ha.
  unfold task_check, check_iv_data, user_task; cbn [t_key t_key_size t_cipher t_mode t_action t_iv t_iv_size t_in t_in_size present].
  rewrite (length_nonnil _ key Hk), (length_nonnil _ inp Hin). cbn [negb].
  assert (m = ECB \/ N.of_nat (length iv) =? iv_len (bc_id c) = true) as Hi'.
  { destruct Hi as [->|Hi]; [left; reflexivity|right]. rewrite Hl, Hi. apply N.eqb_refl. }
  assert (m = ECB \/ N.of_nat (length iv) =? 0 = false) as Hi0.
  { destruct Hi as [->|Hi]; [left; reflexivity|right]. rewrite Hi. apply N.eqb_neq. lia. }
  assert (bc_id c = NOEKEON \/ bc_id c = NOEKEOND -> 16 <? N.of_nat (length key) = false) as Hn'.
  { intro H. specialize (Hn H). apply N.ltb_ge. lia. }
  clear Hn Hi Hl Hs.
  destruct (bc_id c) eqn:E; cbn in Hb; try discriminate Hb;
    destruct m; try congruence;
    destruct Ha as [->|[->| ->]];
    cbn [cipher_id_beq cipher_in existsb cmode_beq negb andb orb iv_len] in *;
    try (rewrite Hn' by auto);
    repeat match goal with H : ?x = ?y \/ ?z = true |- _ => destruct H as [H|H]; [discriminate H|] end;
    repeat match goal with H : ?x = ?y \/ ?z = false |- _ => destruct H as [H|H]; [discriminate H|] end;
    try match goal with H : N.of_nat (length iv) =? 0 = false |- _ => rewrite H end;
    cbn [negb andb orb N.eqb];
    try match goal with H : N.of_nat (length iv) =? _ = true |- _ => rewrite H end; reflexivity.
Qed.

(* What encryption of a text produces in each unauthenticated mode *)
Definition spec_mode (m : cmode) (E : list N -> list N) (iv : list N) (P : list (list N)) : list N :=
  match m with
  | ECB => concat (spec_ecb E P)
  | CBC => iv ++ concat (spec_cbc E iv P)
  | OFB => iv ++ concat (spec_ofb E iv P)
  | _ => iv ++ concat (spec_ctr E iv P)
  end.

Lemma octets_firstn : forall n l, octets l -> octets (firstn n l).
Proof.
  intros n l H. unfold octets in *. rewrite Forall_forall in *. intros x Hx. apply H.
  rewrite <- (firstn_skipn n l). apply in_or_app. left. exact Hx.
Qed.
Lemma octets_skipn : forall n l, octets l -> octets (skipn n l).
Proof.
  intros n l H. unfold octets in *. rewrite Forall_forall in *. intros x Hx. apply H.
  rewrite <- (firstn_skipn n l). apply in_or_app. right. exact Hx.
Qed.
Lemma octets_concat : forall bl, octets (concat bl) -> Forall octets bl.
Proof.
  induction bl as [|b bl IH]; intro H; [constructor|]. cbn in H. unfold octets in H.
  apply Forall_app in H. destruct H. constructor; auto.
Qed.
Lemma concat_octets : forall bl, Forall octets bl -> octets (concat bl).
Proof.
  intros bl H. induction H; cbn; [constructor|]. apply Forall_app. split; assumption.
Qed.

Lemma blocks_ok_of : forall bs l P, octets l -> in_blocks bs l P -> Forall (block_ok bs) P.
Proof.
  intros bs l P Ho [<- Hf]. apply octets_concat in Ho.
  rewrite Forall_forall in *. intros b Hb. split; auto.
Qed.

Lemma blocks_lens : forall bs P, Forall (block_ok bs) P -> Forall (fun b => length b = bs) P.
Proof. intros bs P H. rewrite Forall_forall in *. intros b Hb. apply (H b Hb). Qed.

Lemma blocks_octs : forall bs P, Forall (block_ok bs) P -> octets (concat P).
Proof.
  intros bs P H. apply concat_octets. rewrite Forall_forall in *. intros b Hb. apply (H b Hb).
Qed.

Section OneCipher.
  Variable bs : nat.
  Variable E D : list N -> list N.
  Hypothesis Hbs : (4 <= bs < 256)%nat.
  Hypothesis law0 : inverse_on bs E D.
  Let law : forall x, octets x -> length x = bs -> D (E x) = x /\ octets (E x) /\ length (E x) = bs.
  Proof. intros x H1 H2. destruct (law0 x H1 H2) as [? [[? ?] _]]. auto. Qed.
  Let Hb1 : (0 < bs)%nat. Proof. lia. Qed.
  Let Hb2 : (0 < bs < 256)%nat. Proof. lia. Qed.

  Definition final_counter (iv : list N) (n : nat) : N :=
    (be_val (skipn (length iv - 4) iv) + N.of_nat n) mod 2 ^ 32.

  Lemma ctr_of_counter_block : forall iv n, octets iv -> length iv = bs ->
    ctr_of_block (counter_block iv n) = final_counter iv n.
  Proof.
    intros iv n Ho Hl. rewrite ctr_of_block_val.
    2: { apply counter_block_octets; exact Ho. }
    2: { rewrite counter_block_length; lia. }
    rewrite counter_block_length by lia. unfold counter_block.
    assert (length (firstn (length iv - 4) iv) = length iv - 4)%nat as Hf by (rewrite firstn_length; lia).
    rewrite skipn_app, Hf, Nat.sub_diag. cbn [skipn].
    rewrite skipn_all2 by (rewrite Hf; lia). cbn [app].
    rewrite be_val_bytes. { reflexivity. }
    change (256 ^ N.of_nat 4) with (2 ^ 32). apply N.mod_lt. discriminate.
  Qed.

  (* encryption equals the specification of the mode *)
  Lemma meta_encrypt : forall rnd (Hrnd : forall i, rnd i < 256) m iv text, m <> ModeNr -> octets iv -> m = ECB \/ length iv = bs ->
    octets text -> text <> [] ->
    exists padded P ctr, x923_padded bs text padded /\ octets padded /\ in_blocks bs padded P /\
      meta_block_processing bs E D rnd Encrypt m iv text =
        Some (Done {| p_out := spec_mode m E iv P;
                      p_out_size := N.of_nat (length (spec_mode m E iv P));
                      p_ctr := ctr |}) /\
      ctr = match m with CTR | GCM => Some (final_counter iv (length P)) | _ => None end.
  Proof.
    intros rnd Hrnd m iv text Hm Hiv Hl Ho Hne.
    destruct (x923_pad_padded bs true rnd text Hb2 Hne) as [padded [Hp [Hx Hoct]]].
    specialize (Hoct Ho Hrnd).
    assert (length padded mod bs = 0)%nat as Hmod by (destruct Hx as [? [? [? [? [? ?]]]]]; assumption).
    destruct (in_blocks_exists bs padded Hb1 Hmod) as [P [HP HPl]].
    exists padded, P, (match m with CTR | GCM => Some (final_counter iv (length P)) | _ => None end). split; [exact Hx|]. split; [exact Hoct|]. split; [exact HP|].
    destruct HP as [Hc Hlen].
    unfold meta_block_processing. rewrite Hp. rewrite <- Hc. unfold mode_blocks, select.
    destruct m; try congruence; rewrite run_blocks_steps by assumption; cbn [obind].
    - rewrite steps_ecb. cbn [obind]. split; reflexivity.
    - pose proof (steps_cbc_enc E P iv) as Hs. destruct (steps _ iv P) as [s o]. cbn [snd obind] in *.
      subst o. split; reflexivity.
    - pose proof (steps_ofb E P iv 0) as Hs. cbn [Nat.iter nat_rect] in Hs.
      destruct (steps _ iv P) as [s o]. cbn [snd obind] in *.
      subst o. split; reflexivity.
    - destruct Hl as [Hl|Hl]; [discriminate|].
      pose proof (steps_ctr E P iv 0 Hiv ltac:(lia)) as Hs. rewrite counter_block_0 in Hs by (auto; lia).
      cbn [Nat.add] in Hs. rewrite Hs. cbn [obind final_ctr]. rewrite ctr_of_counter_block by auto. split; reflexivity.
    - destruct Hl as [Hl|Hl]; [discriminate|].
      pose proof (steps_ctr E P iv 0 Hiv ltac:(lia)) as Hs. rewrite counter_block_0 in Hs by (auto; lia).
      cbn [Nat.add] in Hs. rewrite Hs. cbn [obind final_ctr]. rewrite ctr_of_counter_block by auto. split; reflexivity.
  Qed.

  Lemma spec_mode_blocks : forall m iv P, m <> ModeNr -> octets iv -> m = ECB \/ length iv = bs ->
    Forall (block_ok bs) P ->
    exists Q, Forall (block_ok bs) Q /\ length Q = length P /\
      spec_mode m E iv P = (match m with ECB => [] | _ => iv end) ++ concat Q /\
      Q = match m with
          | ECB => spec_ecb E P | CBC => spec_cbc E iv P | OFB => spec_ofb E iv P
          | _ => spec_ctr E iv P end.
  Proof.
    intros m iv P Hm Hiv Hl HP.
    assert (forall f iv P, length (spec_cbc f iv P) = length P) as Hcl.
    { intros f iv0 P0. revert iv0. induction P0; intros; cbn; auto. }
    destruct m; try congruence; eexists; (split; [|split; [|split; [|reflexivity]]]).
    - apply ecb_ok with (D := D); auto.
    - unfold spec_ecb. apply map_length.
    - reflexivity.
    - destruct Hl as [Hl|Hl]; [discriminate|]. apply cbc_ok with (D := D); auto. split; auto.
    - apply Hcl.
    - reflexivity.
    - destruct Hl as [Hl|Hl]; [discriminate|]. apply ofb_ok with (D := D); auto. split; auto.
    - unfold spec_ofb. rewrite map_length, combine_length, seq_length. lia.
    - reflexivity.
    - destruct Hl as [Hl|Hl]; [discriminate|]. apply ctr_ok with (D := D); auto; [lia|split; auto].
    - unfold spec_ctr. rewrite map_length, combine_length, seq_length. lia.
    - reflexivity.
    - destruct Hl as [Hl|Hl]; [discriminate|]. apply ctr_ok with (D := D); auto; [lia|split; auto].
    - unfold spec_ctr. rewrite map_length, combine_length, seq_length. lia.
    - reflexivity.
  Qed.

  Lemma meta_decrypt : forall (rnd2 : nat -> N) m iv iv2 text padded P, m <> ModeNr -> octets iv ->
    m = ECB \/ length iv = bs -> octets padded ->
    x923_padded bs text padded -> in_blocks bs padded P -> N.of_nat (length padded) < W64 ->
    exists q, meta_block_processing bs E D rnd2 Decrypt m iv2 (spec_mode m E iv P) = Some (Done q) /\
              plaintext q = text /\ p_out_size q = N.of_nat (length text) /\
              length (p_out q) = length padded.
  Proof.
    intros rnd2 m iv iv2 text padded P Hm Hiv Hl Hop Hx HP Hw.
    assert (Forall (block_ok bs) P) as HPok by (eapply blocks_ok_of; eauto).
    destruct (spec_mode_blocks m iv P Hm Hiv Hl HPok) as [Q [HQ [HQl [HQe HQd]]]].
    pose proof (blocks_lens _ _ HQ) as HQlen.
    assert (forall ctr, exists q, drop_pad padded ctr = Done q /\ plaintext q = text /\
              p_out_size q = N.of_nat (length text) /\ length (p_out q) = length padded) as Hdrop.
    { intro ctr. destruct (drop_pad_padded bs text padded ctr Hb2 Hx Hw) as [o [Ho1 [Ho2 Ho3]]].
      eexists. split; [exact Ho1|]. unfold plaintext. cbn [p_out p_out_size].
      rewrite Nat2N.id. auto. }
    destruct HP as [Hc HPlen].
    unfold meta_block_processing. rewrite HQe. unfold mode_blocks, select.
    destruct m; try congruence.
    - cbn [app]. rewrite run_blocks_steps by assumption. rewrite steps_ecb. cbn [obind].
      rewrite HQd, (ecb_inv bs E D) by auto. rewrite Hc.
      destruct (Hdrop None) as [q Hq]. exists q. destruct Hq as [-> Hq]. auto.
    - destruct Hl as [Hl|Hl]; [discriminate|].
      destruct (Nat.ltb_spec (length (iv ++ concat Q)) bs) as [H|H]; [rewrite app_length in H; lia|].
      rewrite firstn_app, <- Hl, firstn_all, Nat.sub_diag, firstn_O, app_nil_r.
      rewrite skipn_app, skipn_all, Nat.sub_diag. cbn [skipn app].
      rewrite run_blocks_steps by (rewrite ?Hl; auto). cbn [obind].
      pose proof (cbc_inv bs E D Hb2 law P iv (conj Hl Hiv) HPok) as Hs. rewrite <- HQd in Hs.
      destruct (steps _ iv Q) as [s o]. cbn [snd obind] in *. subst o. rewrite Hc. cbn [final_ctr].
      destruct (Hdrop None) as [q Hq]. exists q. destruct Hq as [-> Hq]. auto.
    - destruct Hl as [Hl|Hl]; [discriminate|].
      destruct (Nat.ltb_spec (length (iv ++ concat Q)) bs) as [H|H]; [rewrite app_length in H; lia|].
      rewrite firstn_app, <- Hl, firstn_all, Nat.sub_diag, firstn_O, app_nil_r.
      rewrite skipn_app, skipn_all, Nat.sub_diag. cbn [skipn app].
      rewrite run_blocks_steps by (rewrite ?Hl; auto). cbn [obind].
      pose proof (steps_ofb E Q iv 0) as Hs. cbn [Nat.iter nat_rect] in Hs.
      change (snd (steps (ofb_step E) iv Q) = concat (spec_ofb E iv Q)) in Hs.
      rewrite HQd, (ofb_inv bs E D) in Hs by (auto; split; auto). rewrite <- HQd in Hs.
      destruct (steps _ iv Q) as [s o]. cbn [snd obind] in *. subst o. rewrite Hc. cbn [final_ctr].
      destruct (Hdrop None) as [q Hq]. exists q. destruct Hq as [-> Hq]. auto.
    - destruct Hl as [Hl|Hl]; [discriminate|].
      destruct (Nat.ltb_spec (length (iv ++ concat Q)) bs) as [H|H]; [rewrite app_length in H; lia|].
      rewrite firstn_app, <- Hl, firstn_all, Nat.sub_diag, firstn_O, app_nil_r.
      rewrite skipn_app, skipn_all, Nat.sub_diag. cbn [skipn app].
      rewrite run_blocks_steps by (rewrite ?Hl; auto). cbn [obind].
      pose proof (steps_ctr E Q iv 0 Hiv ltac:(lia)) as Hs. rewrite counter_block_0 in Hs by (auto; lia).
      change (steps (ctr_step E) iv Q = (counter_block iv (length Q), concat (spec_ctr E iv Q))) in Hs.
      rewrite HQd, (ctr_inv bs E D) in Hs by (auto; try lia; split; auto). rewrite <- HQd in Hs.
      rewrite Hs. cbn [obind]. rewrite Hc.
      destruct (Hdrop (final_ctr CTR (counter_block iv (length Q)))) as [q Hq]. exists q. destruct Hq as [-> Hq]. auto.
    - destruct Hl as [Hl|Hl]; [discriminate|].
      destruct (Nat.ltb_spec (length (iv ++ concat Q)) bs) as [H|H]; [rewrite app_length in H; lia|].
      rewrite firstn_app, <- Hl, firstn_all, Nat.sub_diag, firstn_O, app_nil_r.
      rewrite skipn_app, skipn_all, Nat.sub_diag. cbn [skipn app].
      rewrite run_blocks_steps by (rewrite ?Hl; auto). cbn [obind].
      pose proof (steps_ctr E Q iv 0 Hiv ltac:(lia)) as Hs. rewrite counter_block_0 in Hs by (auto; lia).
      change (steps (ctr_step E) iv Q = (counter_block iv (length Q), concat (spec_ctr E iv Q))) in Hs.
      rewrite HQd, (ctr_inv bs E D) in Hs by (auto; try lia; split; auto). rewrite <- HQd in Hs.
      rewrite Hs. cbn [obind]. rewrite Hc.
      destruct (Hdrop (final_ctr GCM (counter_block iv (length Q)))) as [q Hq]. exists q. destruct Hq as [-> Hq]. auto.
  Qed.
End OneCipher.
