From Verif Require Import Words EncSpec TaskModel ModeModel ModeSpec CipherBase CipherLib ModeProofs ModeProofs2 ModeProofs3 AesModel AesProofs AesProofs2.
From Verif Require Import AesSpec.
Open Scope N_scope.

(* the modes use the block function only on blocks of bytes *)
Section Same.
Variables (E D F : list N -> list N) (bs : nat).
Hypothesis HE : inverse_on bs E D.
Hypothesis HF : forall x, octets x -> length x = bs -> E x = F x.

Definition blk (x : list N) : Prop := octets x /\ length x = bs.
Lemma E_blk : forall x, blk x -> blk (E x).
Proof. intros x [H1 H2]. exact (proj1 (proj2 (HE x H1 H2))). Qed.
Lemma xor_blk : forall x y, blk x -> blk y -> blk (xor_bytes x y).
Proof.
  intros x y [Hx Lx] [Hy Ly]. unfold blk, xor_bytes. rewrite map_length, combine_length, Lx, Ly, Nat.min_id. split; [|reflexivity].
  unfold octets in *. apply Forall_map, Forall_forall. intros [a b] Hab. cbn [fst snd].
  rewrite Forall_forall in Hx, Hy. apply (lxor_lt a b 8); [apply Hx, (in_combine_l _ _ _ _ Hab)|apply Hy, (in_combine_r _ _ _ _ Hab)].
Qed.
Lemma ecb_same : forall P, Forall blk P -> spec_ecb E P = spec_ecb F P.
Proof. intros P HP. apply map_ext_in. intros x Hx. rewrite Forall_forall in HP. apply HF; apply HP, Hx. Qed.
Lemma cbc_same : forall P iv, Forall blk P -> blk iv -> spec_cbc E iv P = spec_cbc F iv P.
Proof.
  induction P as [|p P IH]; intros iv HP Hi; [reflexivity|]. inversion HP; subst. cbn [spec_cbc]. cbv zeta.
  pose proof (xor_blk p iv ltac:(assumption) Hi) as Hx. rewrite <- (HF _ (proj1 Hx) (proj2 Hx)). f_equal. apply IH; [assumption|]. apply E_blk, Hx.
Qed.
Lemma iter_same : forall n iv, blk iv -> Nat.iter n E iv = Nat.iter n F iv /\ blk (Nat.iter n E iv).
Proof.
  induction n as [|n IH]; intros iv Hi; [split; [reflexivity|exact Hi]|]. destruct (IH iv Hi) as [IH1 IH2].
  change (Nat.iter (S n) E iv) with (E (Nat.iter n E iv)). change (Nat.iter (S n) F iv) with (F (Nat.iter n F iv)).
  rewrite <- IH1. split; [apply HF; apply IH2|apply E_blk, IH2].
Qed.
Lemma ofb_same : forall P iv, blk iv -> spec_ofb E iv P = spec_ofb F iv P.
Proof. intros P iv Hi. apply map_ext. intros [j p]. cbn [fst snd]. rewrite (proj1 (iter_same (S j) iv Hi)). reflexivity. Qed.
Lemma ctr_same : forall P iv, (4 <= bs)%nat -> blk iv -> spec_ctr E iv P = spec_ctr F iv P.
Proof.
  intros P iv H4 [Hi Li]. apply map_ext. intros [j p]. cbn [fst snd]. rewrite HF; [reflexivity| |].
  - unfold counter_block. cbv zeta. apply Forall_app. split; [apply octets_bytes, bytes_firstn, octets_bytes, Hi|apply octets_bytes, be_bytes_bytes].
  - unfold counter_block. cbv zeta. rewrite app_length, be_bytes_length, firstn_length. lia.
Qed.
End Same.

Lemma blocks_blk : forall bs padded P, octets padded -> in_blocks bs padded P -> Forall (blk bs) P.
Proof.
  intros bs padded P Ho [Hc Hl]. subst padded. induction P as [|p P IH]; [constructor|]. inversion Hl; subst. cbn [concat] in Ho.
  unfold octets in *. apply Forall_app in Ho. destruct Ho as [H1' H2']. constructor; [split; [exact H1'|reflexivity]|]. apply IH; assumption.
Qed.

Lemma task_same : forall c F pem rnd aad m key iv text, lawful c -> (4 <= bc_bs c)%nat -> acceptable_key c key ->
  (forall x, octets x -> length x = bc_bs c -> bc_enc c key x = F x) ->
  m = ECB \/ m = CBC \/ m = OFB \/ m = CTR -> octets iv -> length iv = bc_bs c -> octets text -> text <> [] -> (forall i, rnd i < 256) ->
  exists padded P p v, x923_padded (bc_bs c) text padded /\ in_blocks (bc_bs c) padded P /\
    block_cipher c pem rnd aad (user_task (bc_id c) m Encrypt key iv text) = Done {| r_result := Success; r_out := Some p; r_iv := v |} /\
    p_out p = spec_mode m F iv P.
Proof.
  intros c F pem rnd aad m key iv text Hc H4 Hk HF Hm Hi Li Ht Hn Hr.
  destruct (encrypt_task c pem rnd aad m key iv text Hc Hk) as (padded & P & p & H1 & H2 & H3 & H4' & H5 & _); try assumption;
    [destruct Hm as [->|[->|[->| ->]]]; discriminate|destruct Hm as [->|[->|[->| ->]]]; discriminate|split; [exact Hi|right; exact Li]|].
  exists padded, P, p. eexists. split; [exact H1|]. split; [exact H3|]. split; [exact H4'|]. rewrite H5.
  destruct Hc as (_ & _ & _ & Hlaw). specialize (Hlaw key Hk). pose proof (blocks_blk _ _ _ H2 H3) as HP.
  assert (blk (bc_bs c) iv) as Bi by (split; assumption).
  destruct Hm as [->|[->|[->| ->]]]; cbn [spec_mode].
  - f_equal. apply (ecb_same _ _ _ HF P HP).
  - f_equal. f_equal. apply (cbc_same _ _ _ _ Hlaw HF P iv HP Bi).
  - f_equal. f_equal. apply (ofb_same _ _ _ _ Hlaw HF P iv Bi).
  - f_equal. f_equal. apply (ctr_same _ _ _ HF P iv H4 Bi).
Qed.

Lemma fips_key : forall c key {n}, length key = S n -> bc_check c key = Done Success -> ~ (bc_id c = NOEKEON \/ bc_id c = NOEKEOND) -> octets key -> acceptable_key c key.
Proof.
  intros c key n L Hc Hid Hk. split; [intros ->; discriminate L|]. split; [exact Hk|]. split; [intro X; destruct (Hid X)|exact Hc].
Qed.
Lemma decrypts : forall c key e block, lawful c -> acceptable_key c key -> octets block -> length block = bc_bs c -> bc_enc c key block = e -> bc_dec c key e = block.
Proof. intros c key e block (_ & _ & _ & Hlaw) Hk Hb Hl <-. exact (proj1 (Hlaw key Hk block Hb Hl)). Qed.
