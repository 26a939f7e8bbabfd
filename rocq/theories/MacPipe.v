(* Lemmas: the cipher+HMAC pipeline over the block ciphers of BlockProps.v *)
From Verif Require Import Words EncSpec TaskModel ModeModel ModeSpec ModeProofs ModeProofs2 ModeProofs3 ModeProps MacModel MacSpec MacProofs MacProofs2.
From Coq Require Import PeanoNat.
Open Scope N_scope.

(* the cipher step of the pipeline run by a block cipher: the task fields as kryptos_task_set_... fill them; out and out_size *)
Definition block_step (c : blockcipher) (pem : pk_param -> list N -> bool) (rnd : nat -> N) (aad : list N) (m : cmode) (iv : list N) (t : mac_task) : outcome mac_task :=
  match mt_key t, mt_in t with
  | Some key, Some inp =>
      obind (block_cipher c pem rnd aad (user_task (bc_id c) m (mt_action t) key iv inp)) (fun r =>
      Done (mkMT (mt_action t) (mt_key t) (mt_in t) (option_map plaintext (r_out r)) (r_result r)))
  | _, _ => UB
  end.
Lemma concat_octets : forall bs Q, Forall (block_ok bs) Q -> octets (concat Q) /\ length (concat Q) = (bs * length Q)%nat.
Proof.
  intros bs Q H. induction H as [|b Q [Lb Ob] _ [IH1 IH2]]; cbn [concat length]; [split; [constructor|lia]|].
  split; [apply octets_app; assumption|rewrite app_length, IH2, Lb; lia].
Qed.
Lemma in_blocks_ok : forall bs l P, octets l -> in_blocks bs l P -> Forall (block_ok bs) P /\ length l = (bs * length P)%nat.
Proof.
  intros bs l P Ol [E F]. subst l. split.
  - rewrite Forall_forall in *. intros b Hb. split; [apply F, Hb|]. unfold octets in *. rewrite Forall_forall in *. intros x Hx. apply Ol. apply in_concat. exists b. auto.
  - clear Ol. induction F as [|b P Hb _ IH]; cbn [concat length]; [lia|rewrite app_length, IH, Hb; lia].
Qed.
Lemma cipher_text_ok : forall c m, lawful c -> unauthenticated m -> forall pem rnd aad key iv text p iv',
  acceptable_key c key -> octets iv -> (m <> ECB -> length iv = bc_bs c) -> octets text -> text <> [] -> byte_source rnd -> N.of_nat (length text) < 2 ^ 59 ->
  block_cipher c pem rnd aad (user_task (bc_id c) m Encrypt key iv text) = Done {| r_result := Success; r_out := Some p; r_iv := iv' |} ->
  octets (p_out p) /\ (length text < length (p_out p))%nat /\ (length (p_out p) <= length text + 512)%nat.
Proof.
  intros c m Hc Hm pem rnd aad key iv text p iv' Hk Hi Hl Ho Hn Hr Hw E.
  assert (m = ECB \/ length iv = bc_bs c) as H1. { destruct Hm as [->|[->|[->| ->]]]; [left; reflexivity|right; apply Hl; discriminate..]. }
  assert (m <> ModeNr /\ m <> GCM) as [H2 H3] by (destruct Hm as [->|[->|[->| ->]]]; split; discriminate).
  destruct (encrypt_task c pem rnd aad m key iv text Hc Hk H2 H3 (conj Hi H1) Ho Hn Hr) as (padded & P & p' & Hx & Hop & HP & E' & Hout & _).
  rewrite E' in E. injection E as -> _. rewrite Hout. pose proof Hc as [_ [_ [Hbs Hlaw]]]. specialize (Hlaw key Hk).
  destruct (in_blocks_ok _ _ _ Hop HP) as [FP LP].
  destruct (spec_mode_blocks (bc_bs c) (bc_enc c key) (bc_dec c key) Hbs Hlaw m iv P H2 Hi H1 FP) as (Q & FQ & LQ & -> & _).
  destruct (concat_octets _ _ FQ) as [OQ LCQ]. destruct Hx as (filler & k & Hkk & Lf & -> & _). rewrite !app_length in LP. cbn [length] in LP.
  rewrite app_length, LCQ, LQ, <- LP. destruct m; cbn [app length]; try (split; [try (apply octets_app; assumption); exact OQ|lia]).
  all: split; [apply octets_app; assumption|]; destruct H1 as [X|X]; [discriminate X|rewrite X; lia].
Qed.
Lemma block_pipeline : forall p H B hs c m, implements p H B hs -> lawful c -> unauthenticated m ->
  forall pem rnd rnd2 aad aad2 key iv iv2 text r r2, text_ok key -> acceptable_key c key -> octets iv -> octets iv2 ->
  (m <> ECB -> length iv = bc_bs c /\ length iv2 = bc_bs c) -> octets text -> text <> [] -> byte_source rnd -> N.of_nat (length text) < 2 ^ 59 ->
  exists ct, (length text < length ct)%nat /\
    run_cipher_mac (block_step c pem rnd aad m iv) (kryptos_hmac p) (mkMT Encrypt (Some key) (Some text) None r) =
      Done (mkMT Encrypt (Some key) (Some text) (Some (HMAC H B key ct ++ ct)) Success) /\
    run_cipher_mac (block_step c pem rnd2 aad2 m iv2) (kryptos_hmac p) (mkMT Decrypt (Some key) (Some (HMAC H B key ct ++ ct)) None r2) =
      Done (mkMT Decrypt (Some key) (Some ct) (Some text) Success).
Proof.
  intros p H B hs c m I Hc Hm pem rnd rnd2 aad aad2 key iv iv2 text r r2 HK Hk Hi Hi2 Hl Ho Hn Hr Hw.
  destruct (mode_round_trip_all c m Hc Hm pem rnd rnd2 aad aad2 key iv iv2 text Hk Hi Hi2 Hl Ho Hn Hr) as (pe & q & v & v2 & E1 & Z1 & E2 & Z2 & _).
  { change W64 with (2 ^ 64). lia. }
  destruct (cipher_text_ok c m Hc Hm pem rnd aad key iv text pe v Hk Hi (fun X => proj1 (Hl X)) Ho Hn Hr Hw E1) as (Oc & Lc & Lc').
  assert (plaintext pe = p_out pe) as Pe by (unfold plaintext; rewrite Z1, Nat2N.id; apply firstn_all).
  assert (p_out pe <> []) as Hne by (intro X; rewrite X in Lc; cbn [length] in Lc; lia).
  pose proof I as (_ & _ & Hhs & HB & _).
  assert (text_ok (p_out pe)) as Tc by (split; [exact Oc|lia]).
  destruct (HMAC_ok p H B hs I key (p_out pe) HK Tc) as [Lm Om].
  exists (p_out pe). split; [lia|]. split.
  - apply (pipeline_encrypt p H B hs I); try assumption. unfold block_step. cbn [mt_key mt_in mt_action]. rewrite E1. cbn [obind r_out r_result option_map]. rewrite Pe. reflexivity.
  - assert (text_ok (HMAC H B key (p_out pe) ++ p_out pe)) as Tm by (split; [apply octets_app; assumption|rewrite app_length; lia]).
    rewrite (pipeline_decrypt p H B hs I _ _ _ _ _ HK Tm).
    rewrite (CipherLib.firstn_exact N _ _ hs Lm), (CipherLib.skipn_exact N _ _ hs Lm).
    replace (Nat.ltb hs (length (HMAC H B key (p_out pe) ++ p_out pe))) with true by (symmetry; apply Nat.ltb_lt; rewrite app_length; lia).
    replace (eqb_list (HMAC H B key (p_out pe)) (HMAC H B key (p_out pe))) with true by (symmetry; apply eqb_list_eq; reflexivity).
    cbn [andb]. unfold block_step. cbn [mt_key mt_in mt_action]. rewrite E2. cbn [obind r_out r_result option_map]. rewrite Z2. reflexivity.
Qed.
