From Verif Require Import Words EncSpec TaskModel ModeModel ModeSpec CipherBase CipherLib SaferModel.
Open Scope N_scope.

Ltac Forall_inv := repeat match goal with H : Forall _ (_ :: _) |- _ => inversion H; clear H; subst end.
Ltac eight ws Hl :=
  destruct ws as [|c0 [|c1 [|c2 [|c3 [|c4 [|c5 [|c6 [|c7 [|? ?]]]]]]]]]; try discriminate Hl.

Definition key8 (k : list N) : Prop := length k = 8%nat /\ words 8 k.

(* lane-wise inverses *)
Definition lane_inv (f g : N -> N -> N) : Prop :=
  forall x y, x < 2 ^ 8 -> y < 2 ^ 8 -> g (f x y) y = x /\ f x y < 2 ^ 8 /\ g x y < 2 ^ 8.

Lemma lanes_inv : forall fs gs k, Forall2 lane_inv fs gs -> length fs = length k -> words 8 k ->
  word_inverse 8 (length fs) (fun c => lanes fs c k) (fun c => lanes gs c k).
Proof.
  intros fs gs k H. revert k. induction H as [|f g fs gs Hf H IH]; intros k Hk Hw ws Hl Hws.
  - destruct ws; [|discriminate]. cbn. repeat split; constructor.
  - destruct k as [|y k]; [discriminate|]. destruct ws as [|x ws]; [discriminate|].
    inversion Hw; inversion Hws; subst. unfold words in *.
    destruct (Hf x y) as (A & B & C); auto. destruct (IH k ltac:(cbn in Hk; lia) ltac:(assumption) ws ltac:(cbn in Hl; lia) ltac:(assumption)) as (A' & (B1 & B2) & (C1 & C2)).
    unfold lanes in *. cbn [combine map]. rewrite A, A'. split; [reflexivity|].
    split; (split; [cbn [length]; lia|constructor; assumption]).
Qed.

Lemma xor_lane : lane_inv xor xor.
Proof. intros x y Hx Hy. rewrite lxor_cancel_r. split; [reflexivity|]. split; wlt. Qed.
Lemma add_lane : lane_inv add8 sub8.
Proof. intros x y Hx Hy. rewrite subw_addw by assumption. split; [reflexivity|]. split; wlt. Qed.

Lemma el_sweep : forallb (fun x => ((nthN saferk64_l_lt (nthN saferk64_e_lt x) =? x) &&
  (nthN saferk64_e_lt (nthN saferk64_l_lt x) =? x) && (nthN saferk64_e_lt x <? 256) &&
  (nthN saferk64_l_lt x <? 256))%bool) all_bytes = true.
Proof. vm_compute. reflexivity. Qed.
Lemma el_ok : forall x, x < 256 -> nthN saferk64_l_lt (nthN saferk64_e_lt x) = x /\
  nthN saferk64_e_lt (nthN saferk64_l_lt x) = x /\ nthN saferk64_e_lt x < 256 /\ nthN saferk64_l_lt x < 256.
Proof.
  intros x Hx. pose proof (sweep_bytes _ el_sweep x Hx) as H. cbv beta in H.
  rewrite !Bool.andb_true_iff, !N.eqb_eq, !N.ltb_lt in H. tauto.
Qed.

Lemma S_inv : word_inverse 8 8 (fun c => lanes saferk64_S c c) (fun c => lanes saferk64_S_1 c c).
Proof.
  intros ws Hl Hw. unfold words in *. eight ws Hl. Forall_inv. unfold saferk64_S, saferk64_S_1, lanes, lookup.
  cbn [combine map]. change (2 ^ 8) with 256 in *.
  destruct (el_ok c0 ltac:(assumption)) as (? & ? & ? & ?).
  destruct (el_ok c1 ltac:(assumption)) as (? & ? & ? & ?).
  destruct (el_ok c2 ltac:(assumption)) as (? & ? & ? & ?).
  destruct (el_ok c3 ltac:(assumption)) as (? & ? & ? & ?).
  destruct (el_ok c4 ltac:(assumption)) as (? & ? & ? & ?).
  destruct (el_ok c5 ltac:(assumption)) as (? & ? & ? & ?).
  destruct (el_ok c6 ltac:(assumption)) as (? & ? & ? & ?).
  destruct (el_ok c7 ltac:(assumption)) as (? & ? & ? & ?).
  split; [congruence|]. split; (split; [reflexivity|repeat constructor; assumption]).
Qed.

Lemma HT2_inv1 : forall a b, a < 2 ^ 8 -> b < 2 ^ 8 -> sub8 (add8 (add8 a a) b) (add8 a b) = a.
Proof.
  intros a b Ha Hb. replace (add8 (add8 a a) b) with (add8 a (add8 a b)) by addw_ac. apply subw_addw, Ha.
Qed.
Lemma HT2_inv2 : forall a b, a < 2 ^ 8 -> b < 2 ^ 8 ->
  sub8 (add8 (add8 a b) (add8 a b)) (add8 (add8 a a) b) = b.
Proof.
  intros a b Ha Hb. replace (add8 (add8 a b) (add8 a b)) with (add8 b (add8 (add8 a a) b)) by addw_ac.
  apply subw_addw, Hb.
Qed.

Lemma pht_inv : word_inverse 8 8 (pairs4 saferk64_HT2) (pairs4 saferk64_IHT2).
Proof.
  intros ws Hl Hw. unfold words in *. eight ws Hl. Forall_inv.
  unfold pairs4, saferk64_HT2, saferk64_IHT2. cbn [app].
  rewrite !HT2_inv1, !HT2_inv2 by assumption. split; [reflexivity|].
  split; (split; [reflexivity|repeat apply Forall_cons; try apply Forall_nil; wlt]).
Qed.
Lemma shuffle_inv : word_inverse 8 8 saferk64_shuffle saferk64_unshuffle.
Proof.
  intros ws Hl Hw. unfold words in *. eight ws Hl. Forall_inv.
  cbn [saferk64_shuffle saferk64_unshuffle]. split; [reflexivity|].
  split; (split; [reflexivity|repeat constructor; assumption]).
Qed.

Lemma T_inv : forall k, key8 k -> word_inverse 8 8 (fun c => lanes saferk64_T c k) (fun c => lanes saferk64_T_1 c k).
Proof.
  intros k [H1 H2]. apply (lanes_inv saferk64_T saferk64_T_1); [|symmetry; exact H1|exact H2].
  unfold saferk64_T, saferk64_T_1. repeat constructor; first [apply xor_lane|apply add_lane]; assumption.
Qed.
Lemma T'_inv : forall k, key8 k -> word_inverse 8 8 (fun c => lanes saferk64_T' c k) (fun c => lanes saferk64_T'_1 c k).
Proof.
  intros k [H1 H2]. apply (lanes_inv saferk64_T' saferk64_T'_1); [|symmetry; exact H1|exact H2].
  unfold saferk64_T', saferk64_T'_1. repeat constructor; first [apply xor_lane|apply add_lane]; assumption.
Qed.

Lemma saferk64_inverse : forall n K, Forall key8 K -> length K = (2 * n + 1)%nat ->
  inverse_on 8 (saferk64_encrypt n K) (saferk64_decrypt n K).
Proof.
  intros n K HK HL. assert (forall i, (i < 2 * n + 1)%nat -> key8 (nth i K [])) as Hn.
  { intros i Hi. apply Forall_nth; [exact HK|lia]. }
  apply inverse_bytes. unfold saferk64_encrypt, saferk64_decrypt.
  apply (word_inverse_comp 8 8 (fun c => fold_left (saferk64_enc_round K) (seq 0 n) c)
    (fun c => fold_left (saferk64_dec_round K) (rev (seq 0 n)) c)
    (fun c => lanes saferk64_T c (nth (2 * n) K [])) (fun c => lanes saferk64_T_1 c (nth (2 * n) K []))); [|apply T_inv, Hn; lia].
  apply word_inverse_fold. intros r Hr. apply in_seq in Hr.
  unfold saferk64_enc_round, saferk64_dec_round. cbv zeta.
  pose proof (word_inverse_comp _ _ _ _ _ _ (T_inv _ (Hn (2 * r)%nat ltac:(lia))) S_inv) as H1.
  pose proof (word_inverse_comp _ _ _ _ _ _ H1 (T'_inv _ (Hn (2 * r + 1)%nat ltac:(lia)))) as H2.
  pose proof (word_inverse_comp _ _ _ _ _ _ (word_inverse_comp _ _ _ _ _ _ H2 pht_inv) shuffle_inv) as H3.
  pose proof (word_inverse_comp _ _ _ _ _ _ (word_inverse_comp _ _ _ _ _ _ H3 pht_inv) shuffle_inv) as H4.
  exact (word_inverse_comp _ _ _ _ _ _ H4 pht_inv).
Qed.

Lemma saferk64_c_ok : forall i c, saferk64_c i = Done c -> length c = 8%nat.
Proof.
  intros i c. unfold saferk64_c. cbn [seq fold_right].
  repeat match goal with |- context [if ?b then _ else _] => destruct b; cbn [obind]; try discriminate end.
  intro H. injection H as <-. reflexivity.
Qed.

Lemma saferk64_keys_ok : forall n i K1 ks, length K1 = 8%nat -> saferk64_keys i n K1 = Done ks ->
  Forall key8 ks /\ length ks = n.
Proof.
  induction n as [|n IH]; intros i K1 ks H1 H; cbn [saferk64_keys] in H.
  - injection H as <-. split; constructor.
  - destruct (saferk64_c (i - 1)) as [c|] eqn:Ec; [|discriminate]. cbn [obind] in H.
    destruct (saferk64_keys (i + 1) n (saferk64_rot K1)) as [ks'|] eqn:Ek; [|discriminate].
    cbn [obind] in H. assert (ks = saferk64_subkey (saferk64_rot K1) c :: ks') as -> by congruence.
    apply saferk64_c_ok in Ec.
    destruct (IH _ _ _ ltac:(unfold saferk64_rot; rewrite map_length; exact H1) Ek) as [I1 I2].
    split; [|cbn [length]; lia]. constructor; [|exact I1]. unfold key8, saferk64_subkey.
    rewrite map_length, combine_length. unfold saferk64_rot. rewrite map_length.
    split; [lia|]. apply Forall_map, Forall_forall. intros [a b] _. apply addw_lt.
Qed.

Lemma saferk64_make_key_ok : forall n key K, bytes key -> saferk64_make_key n key = Done K ->
  Forall key8 K /\ length K = (2 * n + 1)%nat.
Proof.
  intros n key K Hk H. unfold saferk64_make_key in H. destruct (Nat.leb _ _); [discriminate|].
  destruct (ld_user_key_ok 4 2 8 key Hk ltac:(lia)) as [L1 L2].
  set (K0 := store_be 4 (ld_user_key 4 2 8 key)) in *.
  assert (key8 K0) as HK0.
  { destruct (ld_user_key 4 2 8 key) as [|a [|b [|? ?]]]; try discriminate L2. split; [reflexivity|].
    unfold K0, store_be. cbn [map concat]. apply words_app. split; [apply be_bytes_bytes|].
    apply words_app. split; [apply be_bytes_bytes|constructor]. }
  cbv zeta in H. destruct (saferk64_keys 1 (2 * n) K0) as [ks|] eqn:E; [|discriminate].
  cbn [obind] in H. assert (K = K0 :: ks) as -> by congruence.
  destruct (saferk64_keys_ok _ _ _ _ (proj1 HK0) E) as [A B].
  split; [constructor; assumption|cbn [length]; lia].
Qed.

Lemma saferk64_lawful : forall rounds, lawful (saferk64 rounds).
Proof.
  intros rounds. unfold lawful. cbn [saferk64 bc_id bc_bs bc_enc bc_dec].
  split; [reflexivity|]. split; [reflexivity|]. split; [lia|]. intros key (_ & Hk & _ & Hc).
  cbn [saferk64 bc_check] in Hc. destruct rounds as [r|]; [|discriminate]. cbv zeta in Hc.
  destruct (_ <? 1); [discriminate|]. destruct (_ <? _); [discriminate|].
  destruct (saferk64_make_key (Z.to_nat r) key) as [K|] eqn:E; [|discriminate].
  destruct (saferk64_make_key_ok _ _ _ Hk E). apply saferk64_inverse; assumption.
Qed.

(* up to 13 rounds the key expansion is defined; from 14 on it never is *)
Lemma saferk64_c_sweep : forallb (fun i => match saferk64_c i with Done _ => true | UB => false end) (seq 0 26) = true.
Proof. vm_compute. reflexivity. Qed.
Lemma saferk64_keys_defined : forall n i K1, (1 <= i)%nat -> (i + n <= 27)%nat ->
  exists ks, saferk64_keys i n K1 = Done ks.
Proof.
  induction n as [|n IH]; intros i K1 H1 H2; cbn [saferk64_keys]; [eexists; reflexivity|].
  pose proof saferk64_c_sweep as S. rewrite forallb_forall in S. specialize (S (i - 1)%nat ltac:(apply in_seq; lia)).
  destruct (saferk64_c (i - 1)) as [c|]; [|discriminate]. cbn [obind].
  destruct (IH (i + 1)%nat (saferk64_rot K1) ltac:(lia) ltac:(lia)) as [ks ->]. eexists; reflexivity.
Qed.
Lemma saferk64_keys_ub : forall n i K1, (1 <= i <= 27)%nat -> (27 < i + n)%nat ->
  saferk64_keys i n K1 = UB.
Proof.
  induction n as [|n IH]; intros i K1 H1 H2; [lia|]. cbn [saferk64_keys].
  destruct (Nat.eq_dec i 27) as [->|Hi].
  - reflexivity.
  - destruct (saferk64_c (i - 1)) as [c|]; [|reflexivity]. cbn [obind].
    rewrite (IH (i + 1)%nat) by lia. reflexivity.
Qed.
Lemma saferk64_defined : forall n key, (n <= 13)%nat -> exists K, saferk64_make_key n key = Done K.
Proof.
  intros n key H. unfold saferk64_make_key.
  assert (Nat.leb (2 * saferk64_max_round) (2 * n) = false) as -> by (apply Nat.leb_gt; unfold saferk64_max_round; lia).
  destruct (saferk64_keys_defined (2 * n) 1 (store_be 4 (ld_user_key 4 2 8 key)) ltac:(lia) ltac:(lia)) as [ks E].
  cbv zeta. rewrite E. eexists; reflexivity.
Qed.
Lemma saferk64_ub : forall n key, (14 <= n)%nat -> saferk64_make_key n key = UB.
Proof.
  intros n key H. unfold saferk64_make_key. destruct (Nat.leb _ _); [reflexivity|]. cbv zeta.
  rewrite saferk64_keys_ub by lia. reflexivity.
Qed.
