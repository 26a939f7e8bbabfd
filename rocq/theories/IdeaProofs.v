From Verif Require Import Words EncSpec TaskModel ModeModel ModeSpec CipherBase CipherLib IdeaModel.
Ltac Zify.zify_post_hook ::= Z.div_mod_to_equations.
Open Scope N_scope.

(* residues modulo 65537 other than 0, the zero word standing for 65536 *)
Definition val (x : N) : N := if x =? 0 then 65536 else x.

Lemma val_range : forall x, x < 65536 -> 1 <= val x <= 65536.
Proof. intros x H. unfold val. destruct (N.eqb_spec x 0); lia. Qed.

Lemma idea_mul_val : forall x y, x < 65536 -> y < 65536 ->
  idea_mul x y = ((val x * val y) mod 65537) mod 65536.
Proof.
  intros x y Hx Hy. unfold idea_mul, val, subw. change (2 ^ 16) with 65536. change 0x10001 with 65537.
  destruct (N.eqb_spec x 0) as [->|Ex].
  - destruct (N.eqb_spec y 0) as [->|Ey]; [reflexivity|].
    assert ((65536 * y) mod 65537 = 65537 - y) as ->; [|lia].
    symmetry. apply (N.mod_unique _ _ (y - 1)); lia.
  - destruct (N.eqb_spec y 0) as [->|Ey]; [|reflexivity].
    assert ((x * 65536) mod 65537 = 65537 - x) as ->; [|lia].
    symmetry. apply (N.mod_unique _ _ (x - 1)); lia.
Qed.

Lemma idea_mul_lt : forall x y, idea_mul x y < 2 ^ 16.
Proof.
  intros. unfold idea_mul. destruct (x =? 0); [apply subw_lt|]. destruct (y =? 0); [apply subw_lt|].
  apply mod_lt_pow2.
Qed.

Lemma val_mod : forall m, 0 < m < 65537 -> val (m mod 65536) = m.
Proof.
  intros m H. unfold val. destruct (N.eqb_spec (m mod 65536) 0) as [E|E].
  - assert (m / 65536 = 1 \/ m / 65536 = 0) by lia. lia.
  - assert (m <> 65536) by (intros ->; apply E; reflexivity). apply N.mod_small. lia.
Qed.

(* complete sweep over the 16-bit words: the inverse is defined and is an inverse modulo 65537 *)
Definition idea_inv_ok (v : N) : bool :=
  match idea_inv v with
  | Done i => (i <? 65536) && ((val v * val i) mod 65537 =? 1)
  | UB => false
  end.
Lemma idea_inv_sweep0 :
  forallb (fun h => forallb (fun l => idea_inv_ok (h * 256 + l)) all_bytes) all_bytes = true.
Proof. vm_cast_no_check (eq_refl true). Qed.
Lemma split_word : forall (P : N -> bool),
  forallb (fun h => forallb (fun l => P (h * 256 + l)) all_bytes) all_bytes = true ->
  forall v, v < 65536 -> P v = true.
Proof.
  intros P S v Hv. assert (v / 256 < 256) as H1 by lia. assert (v mod 256 < 256) as H2 by lia.
  pose proof (sweep_bytes _ S (v / 256) H1) as S1. cbv beta in S1.
  pose proof (sweep_bytes _ S1 (v mod 256) H2) as S2. cbv beta in S2.
  replace (v / 256 * 256 + v mod 256) with v in S2 by lia. exact S2.
Qed.
Lemma idea_inv_sweep : forall v, v < 65536 -> idea_inv_ok v = true.
Proof. exact (split_word idea_inv_ok idea_inv_sweep0). Qed.
Lemma idea_inv_spec : forall v, v < 65536 ->
  idea_inv v = Done (idea_inv_val v) /\ idea_inv_val v < 65536 /\ (val v * val (idea_inv_val v)) mod 65537 = 1.
Proof.
  intros v Hv. pose proof (idea_inv_sweep v Hv) as S. unfold idea_inv_ok, idea_inv_val in *.
  destruct (idea_inv v) as [i|]; [|discriminate]. apply andb_true_iff in S. destruct S as [S1 S2].
  apply N.ltb_lt in S1. apply N.eqb_eq in S2. auto.
Qed.

Lemma idea_mul_inv : forall x k, x < 65536 -> k < 65536 -> idea_mul (idea_mul x k) (idea_inv_val k) = x.
Proof.
  intros x k Hx Hk. destruct (idea_inv_spec k Hk) as (_ & Hi & Hm).
  pose proof (val_range x Hx) as Vx. pose proof (val_range k Hk) as Vk.
  pose proof (val_range _ Hi) as Vi.
  rewrite (idea_mul_val x k) by assumption.
  set (m := (val x * val k) mod 65537).
  assert ((m * val (idea_inv_val k)) mod 65537 = val x) as E.
  { subst m. rewrite N.mul_mod_idemp_l by discriminate. rewrite <- N.mul_assoc.
    rewrite <- N.mul_mod_idemp_r by discriminate. rewrite Hm, N.mul_1_r. apply N.mod_small. lia. }
  assert (m < 65537) as Hm1 by (apply N.mod_lt; discriminate).
  assert (0 < m) as Hm0.
  { destruct (N.eq_dec m 0) as [Z|]; [|lia]. rewrite Z, N.mul_0_l, N.mod_0_l in E by discriminate. lia. }
  rewrite idea_mul_val; [|apply N.mod_lt; discriminate|exact Hi].
  rewrite val_mod by lia. rewrite E. unfold val. destruct (N.eqb_spec x 0) as [->|]; [reflexivity|].
  apply N.mod_small. exact Hx.
Qed.

Lemma idea_ma_inv : forall k4 k5 s, idea_ma k4 k5 (idea_ma k4 k5 s) = s.
Proof.
  intros k4 k5 [[[a b] c] d]. unfold idea_ma. cbv zeta.
  set (y2 := idea_mul (add16 (idea_mul k4 (xor a b)) (xor c d)) k5).
  set (z2 := add16 (idea_mul k4 (xor a b)) y2).
  assert (forall u v w, xor (xor u w) (xor v w) = xor u v) as X.
  { intros u v w. rewrite (N.lxor_comm v w), <- (N.lxor_assoc (xor u w)), lxor_cancel_r. reflexivity. }
  rewrite !X. fold y2. fold z2. rewrite !lxor_cancel_r. reflexivity.
Qed.
Lemma idea_ma_wf : forall k4 k5 s, w4 16 s -> w4 16 (idea_ma k4 k5 s).
Proof.
  intros k4 k5 [[[a b] c] d] ((Ha & Hb) & (Hc & Hd)). unfold idea_ma. cbv zeta.
  pose proof (idea_mul_lt (add16 (idea_mul k4 (xor a b)) (xor c d)) k5).
  unfold w4. repeat split; wlt.
Qed.

(* the round with sub-keys K, undone with sub-keys K' *)
Definition idea_keys (K K' : list N) (r : nat) : Prop :=
  nth r K 0 < 65536 /\ nth (r + 3) K 0 < 65536 /\
  nth r K' 0 = idea_inv_val (nth r K 0) /\ nth (r + 3) K' 0 = idea_inv_val (nth (r + 3) K 0) /\
  (forall i, In i [1; 2; 4; 5]%nat -> nth (r + i) K' 0 = nth (r + i) K 0).

Lemma idea_round_inv : forall K K' s r, w4 16 s -> idea_keys K K' r ->
  idea_dec_round K' (idea_enc_round K s r) r = s /\ w4 16 (idea_enc_round K s r).
Proof.
  intros K K' [[[a b] c] d] r ((Ha & Hb) & (Hc & Hd)) (K1 & K2 & K3 & K4 & K5).
  unfold idea_dec_round, idea_enc_round. cbv zeta.
  rewrite (K5 4%nat), (K5 5%nat), idea_ma_inv, (K5 1%nat), (K5 2%nat) by (cbn; auto).
  rewrite K3, K4, !idea_mul_inv, !subw_addw by assumption. split; [reflexivity|].
  apply idea_ma_wf. unfold w4. repeat split; try apply idea_mul_lt; wlt.
Qed.
Lemma idea_dec_wf : forall K s r, w4 16 s -> True -> w4 16 (idea_dec_round K s r).
Proof.
  intros K s r Hs _. unfold idea_dec_round. pose proof (idea_ma_wf (nth (r + 4) K 0) (nth (r + 5) K 0) s Hs) as H.
  destruct (idea_ma _ _ s) as [[[a b] c] d]. unfold w4. repeat split; try apply idea_mul_lt; wlt.
Qed.

Lemma idea_words_inv : forall K K' s, w4 16 s -> Forall (idea_keys K K') idea_rounds ->
  nth 48 K 0 < 65536 -> nth 51 K 0 < 65536 ->
  nth 48 K' 0 = idea_inv_val (nth 48 K 0) -> nth 51 K' 0 = idea_inv_val (nth 51 K 0) ->
  nth 49 K' 0 = nth 49 K 0 -> nth 50 K' 0 = nth 50 K 0 ->
  idea_decrypt_words K' (idea_encrypt_words K s) = s /\
  w4 16 (idea_encrypt_words K s) /\ w4 16 (idea_decrypt_words K' s).
Proof.
  intros K K' s Hs HK L48 L51 E48 E51 E49 E50.
  destruct (fold_inverse _ _ (w4 16) (idea_keys K K') _ _ idea_rounds s (idea_round_inv K K') HK Hs) as [H1 H2].
  unfold idea_decrypt_words, idea_encrypt_words.
  destruct (fold_left (idea_enc_round K) idea_rounds s) as [[[a b] c] d]. destruct H2 as ((A & B) & (C & D)).
  rewrite E48, E49, E50, E51, !idea_mul_inv, !subw_addw by assumption. split; [exact H1|].
  split; [unfold w4; repeat split; try apply idea_mul_lt; wlt|].
  destruct s as [[[a0 b0] c0] d0].
  apply fold_wf with (okk := fun _ => True); [apply idea_dec_wf|apply Forall_true|].
  unfold w4; repeat split; try apply idea_mul_lt; wlt.
Qed.

Lemma idea_halves_words : forall s, w4 32 s -> words 16 (idea_halves s).
Proof.
  intros [[[a b] c] d] ((A & B) & (C & D)). unfold idea_halves.
  assert (forall x, x < 2 ^ 32 -> shr x 16 < 2 ^ 16) as S.
  { intros x Hx. rewrite shiftr_div. apply N.div_lt_upper_bound; [discriminate|]. exact Hx. }
  assert (forall x, and x 0xffff < 2 ^ 16) as T by (intro x; apply land_lt_r; reflexivity).
  repeat (apply Forall_cons; [first [apply S; assumption | apply T]|]). constructor.
Qed.
Lemma idea_roll_wf : forall n s, w4 32 s -> w4 32 (Nat.iter n idea_roll1 s).
Proof.
  induction n as [|n IH]; intros s Hs; [exact Hs|]. cbn [Nat.iter nat_rect].
  specialize (IH s Hs). change (nat_rect _ s _ n) with (Nat.iter n idea_roll1 s).
  destruct (Nat.iter n idea_roll1 s) as [[[a b] c] d]. destruct IH as ((A & B) & (C & D)).
  unfold idea_roll1, w4. repeat split; wlt.
Qed.
Lemma idea_expand_ok : forall n s, w4 32 s ->
  words 16 (idea_expand n s) /\ length (idea_expand n s) = (8 * n + 4)%nat.
Proof.
  induction n as [|n IH]; intros s Hs; cbn [idea_expand].
  - pose proof (idea_halves_words s Hs) as H. destruct s as [[[a b] c] d]. cbn [idea_halves firstn] in *.
    split; [|reflexivity]. unfold words in *.
    repeat match goal with H : Forall _ (_ :: _) |- _ => inversion H; clear H; subst end.
    repeat constructor; assumption.
  - destruct (IH _ (idea_roll_wf 25 s Hs)) as [I1 I2]. split.
    + apply words_app. split; [apply idea_halves_words, Hs|exact I1].
    + rewrite app_length, I2. destruct s as [[[a b] c] d]. cbn [idea_halves length]. lia.
Qed.

Lemma idea_key_expander_ok : forall key, bytes key ->
  words 16 (idea_key_expander key) /\ length (idea_key_expander key) = 52%nat.
Proof.
  intros key Hk. unfold idea_key_expander. cbv zeta.
  destruct (ld_user_key_ok 4 4 16 key Hk ltac:(lia)) as [H _]. change (8 * N.of_nat 4) with 32 in H.
  apply idea_expand_ok. unfold w4. repeat split; apply nth_words, H.
Qed.

Lemma idea_lawful : lawful idea.
Proof.
  unfold lawful. cbn [idea bc_id bc_bs bc_enc bc_dec].
  split; [reflexivity|]. split; [reflexivity|]. split; [lia|]. intros key (_ & Hk & _).
  apply (inverse_blk_be 2 4). change (8 * N.of_nat 2) with 16. apply word_inverse_on4. intros s Hs.
  destruct (idea_key_expander_ok key Hk) as [HK HL]. set (K := idea_key_expander key) in *. clearbody K.
  assert (forall i, nth i K 0 < 65536) as HN by (intro i; apply (nth_words 16), HK).
  do 52 (destruct K as [|? K]; [discriminate HL|]). destruct K; [|discriminate HL].
  apply idea_words_inv; try (reflexivity || apply HN); [exact Hs|].
  unfold idea_rounds. cbn [map seq].
  repeat (apply Forall_cons; [split; [apply HN|]; split; [apply HN|]; split; [reflexivity|]; split; [reflexivity|];
    intros i Hi; cbn [In] in Hi; destruct Hi as [<-|[<-|[<-|[<-|[]]]]]; reflexivity|]).
  constructor.
Qed.
