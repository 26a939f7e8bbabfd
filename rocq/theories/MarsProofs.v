From Verif Require Import Words TaskModel ModeModel ModeSpec CipherBase CipherLib FeistelLib MarsModel.
Open Scope N_scope.

Lemma S_words : words 32 mars_S.
Proof. apply words_forallb. vm_compute. reflexivity. Qed.
Lemma S_lt : forall i, nthN mars_S i < 2 ^ 32.
Proof. intro i. unfold nthN. apply nth_words, S_words. Qed.
Lemma S0_lt : forall b, mars_S0 b < 2 ^ 32.
Proof. intro. apply S_lt. Qed.
Lemma S1_lt : forall b, mars_S1 b < 2 ^ 32.
Proof. intro. apply S_lt. Qed.
Lemma E_lt : forall x k1 k2, x < 2 ^ 32 ->
  fst (fst (mars_E x k1 k2)) < 2 ^ 32 /\ snd (mars_E x k1 k2) < 2 ^ 32.
Proof.
  intros x k1 k2 Hx. unfold mars_E. cbn [fst snd].
  assert (forall v, rotl32 (rotl32 (mul32 v k2) 5) 5 < 2 ^ 32) as HR by (intro; apply rotl_lt, rotl_lt, mulw_lt).
  split; [|apply HR].
  apply rotl_lt, lxor_lt; [|apply HR]. apply lxor_lt; [apply S_lt|apply rotl_lt, mulw_lt].
Qed.

Lemma rot_wl_wr : forall s, mars_rotwl (mars_rotwr s) = s.
Proof. intros [[[a b] c] d]. reflexivity. Qed.
Lemma rot_wr_wl : forall s, mars_rotwr (mars_rotwl s) = s.
Proof. intros [[[a b] c] d]. reflexivity. Qed.
Lemma rotwr_w4 : forall s, w4 32 s -> w4 32 (mars_rotwr s).
Proof. intros [[[a b] c] d]. cbn. tauto. Qed.
Lemma rotwl_w4 : forall s, w4 32 s -> w4 32 (mars_rotwl s).
Proof. intros [[[a b] c] d]. cbn. tauto. Qed.

Lemma extra_add_sub : forall r i s, w4 32 s -> mars_extra add32 r i (mars_extra sub32 r i s) = s.
Proof.
  intros r i [[[a b] c] d] [[Ha Hb] [Hc Hd]]. unfold mars_extra.
  destruct (Nat.eqb i r || Nat.eqb i (r + 4))%bool; [|destruct (Nat.eqb i (r + 1) || Nat.eqb i (r + 5))%bool];
    rewrite ?addw_subw by assumption; reflexivity.
Qed.
Lemma extra_sub_add : forall r i s, w4 32 s -> mars_extra sub32 r i (mars_extra add32 r i s) = s.
Proof.
  intros r i [[[a b] c] d] [[Ha Hb] [Hc Hd]]. unfold mars_extra.
  destruct (Nat.eqb i r || Nat.eqb i (r + 4))%bool; [|destruct (Nat.eqb i (r + 1) || Nat.eqb i (r + 5))%bool];
    rewrite ?subw_addw by assumption; reflexivity.
Qed.
Lemma extra_w4 : forall op r i s, (forall x y, op x y < 2 ^ 32) -> w4 32 s -> w4 32 (mars_extra op r i s).
Proof.
  intros op r i [[[a b] c] d] Ho [[Ha Hb] [Hc Hd]]. unfold mars_extra.
  destruct (Nat.eqb i r || Nat.eqb i (r + 4))%bool; [|destruct (Nat.eqb i (r + 1) || Nat.eqb i (r + 5))%bool];
    cbn [w4]; auto.
Qed.

Lemma w4_intro : forall a b c d, a < 2 ^ 32 -> b < 2 ^ 32 -> c < 2 ^ 32 -> d < 2 ^ 32 -> w4 32 (a, b, c, d).
Proof. intros a b c d Ha Hb Hc Hd. exact (conj (conj Ha Hb) (conj Hc Hd)). Qed.

(* one forward mixing round and its inverse *)
Lemma fmix_inv : forall s i, w4 32 s ->
  mars_bmix_1 (mars_fmix s i) i = s /\ w4 32 (mars_fmix s i) /\ w4 32 (mars_bmix_1 s i).
Proof.
  intros [[[a b] c] d] i Hs. pose proof Hs as [[Ha Hb] [Hc Hd]]. split; [|split].
  - unfold mars_fmix, mars_bmix_1. rewrite rot_wl_wr, extra_sub_add.
    + rewrite rotl_rotr by (assumption || (apply N.leb_le; reflexivity)).
      rewrite subw_addw by (apply lxor_lt; [assumption|apply S0_lt]). rewrite subw_addw by assumption.
      rewrite !lxor_cancel_r. reflexivity.
    + apply w4_intro; [apply rotr_lt; assumption|apply addw_lt|apply addw_lt|apply lxor_lt; [assumption|apply S1_lt]].
  - unfold mars_fmix. apply rotwr_w4, extra_w4; [intros; apply addw_lt|].
    apply w4_intro; [apply rotr_lt; assumption|apply addw_lt|apply addw_lt|apply lxor_lt; [assumption|apply S1_lt]].
  - unfold mars_bmix_1.
    pose proof (extra_w4 sub32 0 i _ (subw_lt 32) (rotwl_w4 _ Hs)) as H. revert H.
    destruct (mars_extra sub32 0 i (mars_rotwl (a, b, c, d))) as [[[a1 b1] c1] d1]. intros [[H1 H2] [H3 H4]].
    apply w4_intro; [apply rotl_lt; assumption|apply lxor_lt; [apply subw_lt|apply S0_lt]|apply subw_lt|
      apply lxor_lt; [assumption|apply S1_lt]].
Qed.

Lemma keyed_inv : forall K s i, w4 32 s ->
  mars_keyed_1 K (mars_keyed K s i) i = s /\ w4 32 (mars_keyed K s i) /\ w4 32 (mars_keyed_1 K s i).
Proof.
  intros K [[[a b] c] d] i [[Ha Hb] [Hc Hd]]. split; [|split].
  - unfold mars_keyed, mars_keyed_1.
    destruct (mars_E a (nth (2 * i + 4) K 0) (nth (2 * i + 5) K 0)) as [[L M] R] eqn:EE.
    cbv zeta. rewrite rot_wl_wr.
    destruct (Nat.ltb i 8); cbv iota beta; rewrite rotr_rotl by (assumption || (apply N.leb_le; reflexivity));
      rewrite EE; rewrite !subw_addw by assumption; rewrite lxor_cancel_r; reflexivity.
  - unfold mars_keyed. pose proof (E_lt a (nth (2 * i + 4) K 0) (nth (2 * i + 5) K 0) Ha) as HE. revert HE.
    destruct (mars_E a (nth (2 * i + 4) K 0) (nth (2 * i + 5) K 0)) as [[L M] R]. cbn [fst snd]. intros [HL HR].
    cbv zeta. apply rotwr_w4. destruct (Nat.ltb i 8); apply w4_intro; wlt.
  - unfold mars_keyed_1, mars_rotwl. cbv zeta.
    assert (rotr32 d 13 < 2 ^ 32) as Hr by (apply rotr_lt; assumption).
    pose proof (E_lt (rotr32 d 13) (nth (2 * i + 4) K 0) (nth (2 * i + 5) K 0) Hr) as HE. revert HE.
    destruct (mars_E (rotr32 d 13) (nth (2 * i + 4) K 0) (nth (2 * i + 5) K 0)) as [[L M] R]. cbn [fst snd]. intros [HL HR].
    destruct (Nat.ltb i 8); apply w4_intro; wlt.
Qed.

Lemma bmix_inv : forall s i, w4 32 s ->
  mars_fmix_1 (mars_bmix s i) i = s /\ w4 32 (mars_bmix s i) /\ w4 32 (mars_fmix_1 s i).
Proof.
  intros s i Hs. pose proof (extra_w4 sub32 2 i _ (subw_lt 32) Hs) as H.
  pose proof (extra_add_sub 2 i s Hs) as HA.
  split; [|split].
  - unfold mars_bmix, mars_fmix_1.
    destruct (mars_extra sub32 2 i s) as [[[a b] c] d]. destruct H as [[Ha Hb] [Hc Hd]]. cbv zeta.
    rewrite rot_wl_wr. rewrite rotr_rotl by (assumption || (apply N.leb_le; reflexivity)).
    rewrite !lxor_cancel_r, !addw_subw by assumption. exact HA.
  - unfold mars_bmix.
    destruct (mars_extra sub32 2 i s) as [[[a b] c] d]. destruct H as [[Ha Hb] [Hc Hd]]. cbv zeta.
    apply rotwr_w4. apply w4_intro; [apply rotl_lt; assumption|apply lxor_lt; [assumption|apply S1_lt]|apply subw_lt|
      apply lxor_lt; [apply subw_lt|apply S0_lt]].
  - unfold mars_fmix_1. pose proof (rotwl_w4 _ Hs) as Hw. destruct (mars_rotwl s) as [[[a b] c] d].
    destruct Hw as [[Ha Hb] [Hc Hd]]. cbv zeta. apply extra_w4; [apply addw_lt|].
    apply w4_intro; [apply rotr_lt; assumption|apply lxor_lt; [assumption|apply S1_lt]|apply addw_lt|apply addw_lt].
Qed.

Lemma whiten_w4 : forall op K o s, (forall x y, op x y < 2 ^ 32) -> w4 32 (mars_whiten op K o s).
Proof. intros op K o [[[a b] c] d] H. cbn [w4 mars_whiten]. auto. Qed.
Lemma whiten_add_sub : forall K o s, w4 32 s -> mars_whiten add32 K o (mars_whiten sub32 K o s) = s.
Proof. intros K o [[[a b] c] d] [[Ha Hb] [Hc Hd]]. unfold mars_whiten. rewrite !addw_subw by assumption. reflexivity. Qed.
Lemma whiten_sub_add : forall K o s, w4 32 s -> mars_whiten sub32 K o (mars_whiten add32 K o s) = s.
Proof. intros K o [[[a b] c] d] [[Ha Hb] [Hc Hd]]. unfold mars_whiten. rewrite !subw_addw by assumption. reflexivity. Qed.

Lemma mars_words_inv : forall K s, w4 32 s ->
  mars_dec K (mars_enc K s) = s /\ w4 32 (mars_enc K s) /\ w4 32 (mars_dec K s).
Proof.
  intros K s Hs. split; [|split].
  - unfold mars_enc, mars_dec. cbv zeta.
    assert (forall (e d : mars_state -> nat -> mars_state) l x, (forall s k, w4 32 s -> d (e s k) k = s /\ w4 32 (e s k)) -> w4 32 x ->
              fold_left d (rev l) (fold_left e l x) = x /\ w4 32 (fold_left e l x)) as HF.
    { intros e d l x H Hx. apply (fold_inverse _ nat (w4 32) (fun _ => True)); [intros; apply H; assumption| |exact Hx].
      apply Forall_forall. intros. exact I. }
    assert (w4 32 (mars_whiten add32 K 0 s)) as H1 by (apply whiten_w4, addw_lt).
    destruct (HF mars_fmix mars_bmix_1 (seq 0 8) _ (fun x k Hx => conj (proj1 (fmix_inv x k Hx)) (proj1 (proj2 (fmix_inv x k Hx)))) H1) as [I1 W1].
    destruct (HF (mars_keyed K) (mars_keyed_1 K) (seq 0 16) _ (fun x k Hx => conj (proj1 (keyed_inv K x k Hx)) (proj1 (proj2 (keyed_inv K x k Hx)))) W1) as [I2 W2].
    destruct (HF mars_bmix mars_fmix_1 (seq 0 8) _ (fun x k Hx => conj (proj1 (bmix_inv x k Hx)) (proj1 (proj2 (bmix_inv x k Hx)))) W2) as [I3 W3].
    rewrite whiten_add_sub by assumption. rewrite I3, I2, I1. apply whiten_sub_add, Hs.
  - apply whiten_w4, subw_lt.
  - apply whiten_w4, subw_lt.
Qed.

Lemma mars_inverse : forall K, inverse_on 16 (mars_block_encrypt K) (mars_block_decrypt K).
Proof.
  intro K. apply (inverse_blk_le 4 4). apply word_inverse_on4. apply mars_words_inv.
Qed.

Lemma mars_lawful : forall id n, In id [MARS128; MARS192; MARS256] -> lawful (mars id n).
Proof.
  intros id n Hid. unfold lawful. cbn [mars bc_id bc_bs bc_enc bc_dec bc_check].
  split; [destruct Hid as [<-|[<-|[<-|[]]]]; reflexivity|]. split; [destruct Hid as [<-|[<-|[<-|[]]]]; reflexivity|]. split; [lia|].
  intros key _. apply mars_inverse.
Qed.
Lemma mars128_lawful : lawful mars128.
Proof. apply mars_lawful. cbn. auto. Qed.
Lemma mars192_lawful : lawful mars192.
Proof. apply mars_lawful. cbn. auto. Qed.
Lemma mars256_lawful : lawful mars256.
Proof. apply mars_lawful. cbn. auto. Qed.
(* keys of more than 32 bytes overflow the 32-byte array wkey *)
Lemma mars_ub : forall id n key, (32 < length key)%nat -> bc_check (mars id n) key = UB.
Proof.
  intros id n key H. cbn [mars bc_check]. unfold mars_key_sched, mars_wkey.
  destruct (Nat.leb_spec (length key) 32); [lia|reflexivity].
Qed.
Lemma mars_defined : forall id n key, (length key <= 32)%nat -> bc_check (mars id n) key = Done Success.
Proof.
  intros id n key H. cbn [mars bc_check]. unfold mars_key_sched, mars_wkey.
  destruct (Nat.leb_spec (length key) 32); [reflexivity|lia].
Qed.
