(* Lemmas shared by the block cipher proofs. *)
From Coq Require Import Bool Ring.
From Verif Require Import Words EncSpec TaskModel ModeModel ModeSpec CipherBase.
Ltac Zify.zify_post_hook ::= Z.div_mod_to_equations.
Open Scope N_scope.

Definition words (w : N) (l : list N) : Prop := Forall (fun x => x < 2 ^ w) l.

Lemma pow256 : forall n, 256 ^ n = 2 ^ (8 * n).
Proof. intro n. rewrite N.pow_mul_r. reflexivity. Qed.

Lemma octets_bytes : forall l, octets l <-> bytes l.
Proof. intro l. reflexivity. Qed.

Lemma slice_length : forall l i n, (i + n <= length l)%nat -> length (slice l i n) = n.
Proof. intros. unfold slice. rewrite firstn_length, skipn_length. lia. Qed.

Lemma skipn_add : forall (A : Type) (l : list A) a b, skipn a (skipn b l) = skipn (b + a) l.
Proof.
  induction l as [|x l IH]; intros a b.
  - rewrite !skipn_nil. reflexivity.
  - destruct b; [reflexivity|]. cbn [skipn Nat.add]. apply IH.
Qed.

Lemma load_be_cons : forall wb n l,
  load_be wb (S n) l = be_val (firstn wb l) :: load_be wb n (skipn wb l).
Proof.
  intros wb n l. unfold load_be. cbn [seq map]. f_equal.
  rewrite <- seq_shift, map_map. apply map_ext. intro i. unfold slice.
  rewrite skipn_add. do 3 f_equal; lia.
Qed.
Lemma load_le_cons : forall wb n l,
  load_le wb (S n) l = le_val (firstn wb l) :: load_le wb n (skipn wb l).
Proof.
  intros wb n l. unfold load_le. cbn [seq map]. f_equal.
  rewrite <- seq_shift, map_map. apply map_ext. intro i. unfold slice.
  rewrite skipn_add. do 3 f_equal; lia.
Qed.

Lemma load_be_length : forall wb n l, length (load_be wb n l) = n.
Proof. intros. unfold load_be. rewrite map_length, seq_length. reflexivity. Qed.
Lemma load_le_length : forall wb n l, length (load_le wb n l) = n.
Proof. intros. unfold load_le. rewrite map_length, seq_length. reflexivity. Qed.

Lemma bytes_firstn : forall n l, bytes l -> bytes (firstn n l).
Proof.
  intros n l H. unfold bytes in *. rewrite <- (firstn_skipn n l) in H.
  apply Forall_app in H. tauto.
Qed.
Lemma bytes_skipn : forall n l, bytes l -> bytes (skipn n l).
Proof.
  intros n l H. unfold bytes in *. rewrite <- (firstn_skipn n l) in H.
  apply Forall_app in H. tauto.
Qed.
Lemma bytes_rev : forall l, bytes l -> bytes (rev l).
Proof. intros l H. apply Forall_rev, H. Qed.

Lemma le_bytes_length : forall k x, length (le_bytes k x) = k.
Proof. intros. unfold le_bytes. rewrite rev_length. apply be_bytes_length. Qed.
Lemma le_bytes_bytes : forall k x, bytes (le_bytes k x).
Proof. intros. apply bytes_rev, be_bytes_bytes. Qed.
Lemma le_val_bytes : forall k x, x < 256 ^ N.of_nat k -> le_val (le_bytes k x) = x.
Proof. intros. unfold le_val, le_bytes. rewrite rev_involutive. apply be_val_bytes; auto. Qed.
Lemma le_bytes_val : forall l, bytes l -> le_bytes (length l) (le_val l) = l.
Proof.
  intros l H. unfold le_val, le_bytes.
  rewrite <- (rev_length l), be_bytes_val by (apply bytes_rev; auto). apply rev_involutive.
Qed.
Lemma le_val_lt : forall l, bytes l -> le_val l < 256 ^ N.of_nat (length l).
Proof.
  intros l H. unfold le_val. rewrite <- (rev_length l). apply be_val_lt, bytes_rev, H.
Qed.

Lemma store_be_length : forall wb ws, length (store_be wb ws) = (wb * length ws)%nat.
Proof.
  intros wb ws. unfold store_be. induction ws as [|w ws IH]; cbn [map concat length]; [lia|].
  rewrite app_length, be_bytes_length, IH. lia.
Qed.
Lemma store_le_length : forall wb ws, length (store_le wb ws) = (wb * length ws)%nat.
Proof.
  intros wb ws. unfold store_le. induction ws as [|w ws IH]; cbn [map concat length]; [lia|].
  rewrite app_length, le_bytes_length, IH. lia.
Qed.
Lemma store_be_bytes : forall wb ws, bytes (store_be wb ws).
Proof.
  intros wb ws. unfold store_be. induction ws as [|w ws IH]; cbn [map concat]; [constructor|].
  apply Forall_app. split; [apply be_bytes_bytes|apply IH].
Qed.
Lemma store_le_bytes : forall wb ws, bytes (store_le wb ws).
Proof.
  intros wb ws. unfold store_le. induction ws as [|w ws IH]; cbn [map concat]; [constructor|].
  apply Forall_app. split; [apply le_bytes_bytes|apply IH].
Qed.

Lemma firstn_exact : forall (A : Type) (a b : list A) n, length a = n -> firstn n (a ++ b) = a.
Proof. intros A a b n <-. rewrite firstn_app, Nat.sub_diag, firstn_all, firstn_O, app_nil_r. reflexivity. Qed.
Lemma skipn_exact : forall (A : Type) (a b : list A) n, length a = n -> skipn n (a ++ b) = b.
Proof. intros A a b n <-. rewrite skipn_app, Nat.sub_diag, skipn_all, skipn_O. reflexivity. Qed.

Lemma load_store_be : forall wb ws, words (8 * N.of_nat wb) ws ->
  load_be wb (length ws) (store_be wb ws) = ws.
Proof.
  intros wb ws H. induction H as [|w ws Hw H IH]; [reflexivity|].
  cbn [length]. rewrite load_be_cons. unfold store_be in *. cbn [map concat].
  rewrite firstn_exact, skipn_exact by apply be_bytes_length.
  rewrite be_val_bytes by (rewrite pow256; exact Hw). f_equal. exact IH.
Qed.
Lemma load_store_le : forall wb ws, words (8 * N.of_nat wb) ws ->
  load_le wb (length ws) (store_le wb ws) = ws.
Proof.
  intros wb ws H. induction H as [|w ws Hw H IH]; [reflexivity|].
  cbn [length]. rewrite load_le_cons. unfold store_le in *. cbn [map concat].
  rewrite firstn_exact, skipn_exact by apply le_bytes_length.
  rewrite le_val_bytes by (rewrite pow256; exact Hw). f_equal. exact IH.
Qed.

Lemma store_load_be : forall wb n l, bytes l -> length l = (wb * n)%nat ->
  store_be wb (load_be wb n l) = l.
Proof.
  intros wb n. induction n as [|n IH]; intros l Hb Hl.
  - destruct l; [reflexivity|cbn in Hl; lia].
  - rewrite load_be_cons. unfold store_be in *. cbn [map concat].
    rewrite IH by (try apply bytes_skipn; try rewrite skipn_length; auto; lia).
    assert (length (firstn wb l) = wb) as Hw by (rewrite firstn_length; lia).
    rewrite <- Hw at 1. rewrite be_bytes_val by (apply bytes_firstn, Hb). apply firstn_skipn.
Qed.
Lemma store_load_le : forall wb n l, bytes l -> length l = (wb * n)%nat ->
  store_le wb (load_le wb n l) = l.
Proof.
  intros wb n. induction n as [|n IH]; intros l Hb Hl.
  - destruct l; [reflexivity|cbn in Hl; lia].
  - rewrite load_le_cons. unfold store_le in *. cbn [map concat].
    rewrite IH by (try apply bytes_skipn; try rewrite skipn_length; auto; lia).
    assert (length (firstn wb l) = wb) as Hw by (rewrite firstn_length; lia).
    rewrite <- Hw at 1. rewrite le_bytes_val by (apply bytes_firstn, Hb). apply firstn_skipn.
Qed.

Lemma pow2_mono : forall a b, a <= b -> 2 ^ a <= 2 ^ b.
Proof. intros. apply N.pow_le_mono_r; lia. Qed.

Lemma load_be_words : forall wb n l, bytes l -> words (8 * N.of_nat wb) (load_be wb n l).
Proof.
  intros wb n. induction n as [|n IH]; intros l Hb; [constructor|].
  rewrite load_be_cons. constructor; [|apply IH, bytes_skipn, Hb].
  rewrite <- pow256. eapply N.lt_le_trans; [apply be_val_lt, bytes_firstn, Hb|].
  apply N.pow_le_mono_r; [lia|]. rewrite firstn_length. lia.
Qed.
Lemma load_le_words : forall wb n l, bytes l -> words (8 * N.of_nat wb) (load_le wb n l).
Proof.
  intros wb n. induction n as [|n IH]; intros l Hb; [constructor|].
  rewrite load_le_cons. constructor; [|apply IH, bytes_skipn, Hb].
  rewrite <- pow256. eapply N.lt_le_trans; [apply le_val_lt, bytes_firstn, Hb|].
  apply N.pow_le_mono_r; [lia|]. rewrite firstn_length. lia.
Qed.

(* f and g keep n words of w bits, and g undoes f *)
Definition word_inverse (w : N) (n : nat) (f g : list N -> list N) : Prop :=
  forall ws, length ws = n -> words w ws ->
    g (f ws) = ws /\ (length (f ws) = n /\ words w (f ws)) /\ (length (g ws) = n /\ words w (g ws)).

Lemma inverse_blk_be : forall wb n f g, word_inverse (8 * N.of_nat wb) n f g ->
  inverse_on (wb * n) (blk_be wb n f) (blk_be wb n g).
Proof.
  intros wb n f g H x Hx Hl. unfold blk_be.
  pose proof (load_be_length wb n x) as L1. pose proof (load_be_words wb n x Hx) as L2.
  destruct (H _ L1 L2) as (H1 & (H2 & H3) & (H4 & H5)).
  repeat split; try apply store_be_bytes; try (rewrite store_be_length; lia).
  pose proof (load_store_be wb _ H3) as L3. rewrite H2 in L3. rewrite L3, H1.
  apply store_load_be; auto.
Qed.
Lemma inverse_blk_le : forall wb n f g, word_inverse (8 * N.of_nat wb) n f g ->
  inverse_on (wb * n) (blk_le wb n f) (blk_le wb n g).
Proof.
  intros wb n f g H x Hx Hl. unfold blk_le.
  pose proof (load_le_length wb n x) as L1. pose proof (load_le_words wb n x Hx) as L2.
  destruct (H _ L1 L2) as (H1 & (H2 & H3) & (H4 & H5)).
  repeat split; try apply store_le_bytes; try (rewrite store_le_length; lia).
  pose proof (load_store_le wb _ H3) as L3. rewrite H2 in L3. rewrite L3, H1.
  apply store_load_le; auto.
Qed.

Definition w2 (w : N) (s : N * N) : Prop := fst s < 2 ^ w /\ snd s < 2 ^ w.
Definition w4 (w : N) (s : N * N * N * N) : Prop :=
  let '(a, b, c, d) := s in (a < 2 ^ w /\ b < 2 ^ w) /\ (c < 2 ^ w /\ d < 2 ^ w).

Lemma word_inverse_on2 : forall w f g,
  (forall s, w2 w s -> g (f s) = s /\ w2 w (f s) /\ w2 w (g s)) ->
  word_inverse w 2 (on2 f) (on2 g).
Proof.
  intros w f g H ws Hl Hw. unfold words in *.
  destruct ws as [|a [|b [|? ?]]]; try discriminate Hl.
  inversion Hw as [|? ? Ha Hw1]; subst. inversion Hw1 as [|? ? Hb _]; subst.
  destruct (H (a, b) (conj Ha Hb)) as (H1 & H2 & H3). unfold on2.
  destruct (f (a, b)) as [c d]. rewrite H1. destruct (g (a, b)) as [c' d'].
  unfold w2 in *; cbn [fst snd] in *. repeat split; auto; repeat constructor; tauto.
Qed.
Lemma word_inverse_on4 : forall w f g,
  (forall s, w4 w s -> g (f s) = s /\ w4 w (f s) /\ w4 w (g s)) ->
  word_inverse w 4 (on4 f) (on4 g).
Proof.
  intros w f g H ws Hl Hw. unfold words in *.
  destruct ws as [|a [|b [|c [|d [|? ?]]]]]; try discriminate Hl.
  inversion Hw as [|? ? Ha Hw1]; subst. inversion Hw1 as [|? ? Hb Hw2]; subst.
  inversion Hw2 as [|? ? Hc Hw3]; subst. inversion Hw3 as [|? ? Hd _]; subst.
  destruct (H (a, b, c, d) (conj (conj Ha Hb) (conj Hc Hd))) as (H1 & H2 & H3). unfold on4.
  destruct (f (a, b, c, d)) as [[[a1 b1] c1] d1]. rewrite H1.
  destruct (g (a, b, c, d)) as [[[a2 b2] c2] d2].
  unfold w4 in *; cbn [fst snd] in *. repeat split; auto; repeat constructor; tauto.
Qed.

(* a loop run backwards over the reversed list of round data undoes the loop *)
Lemma fold_inverse : forall (S K : Type) (wf : S -> Prop) (okk : K -> Prop) (e d : S -> K -> S) ks s,
  (forall s k, wf s -> okk k -> d (e s k) k = s /\ wf (e s k)) ->
  Forall okk ks -> wf s ->
  fold_left d (rev ks) (fold_left e ks s) = s /\ wf (fold_left e ks s).
Proof.
  intros S K wf okk e d ks s H Hk. revert s.
  induction Hk as [|k ks Hk1 Hk IH]; intros s Hs; [cbn; auto|].
  cbn [rev fold_left]. rewrite fold_left_app. cbn [fold_left].
  destruct (H s k Hs Hk1) as [H1 H2]. destruct (IH _ H2) as [H3 H4].
  rewrite H3. auto.
Qed.

Lemma fold_wf : forall (S K : Type) (wf : S -> Prop) (okk : K -> Prop) (e : S -> K -> S) ks s,
  (forall s k, wf s -> okk k -> wf (e s k)) -> Forall okk ks -> wf s -> wf (fold_left e ks s).
Proof.
  intros S K wf okk e ks s H Hk. revert s. induction Hk as [|k ks Hk1 Hk IH]; intros s Hs; cbn; auto.
Qed.

Lemma iter_succ_r : forall (S : Type) (f : S -> S) n s, Nat.iter (Datatypes.S n) f s = Nat.iter n f (f s).
Proof. intros S f n s. induction n as [|n IH]; [reflexivity|]. cbn [Nat.iter nat_rect] in *. rewrite IH. reflexivity. Qed.

Lemma iter_inverse : forall (S : Type) (wf : S -> Prop) (e d : S -> S) n s,
  (forall s, wf s -> d (e s) = s /\ wf (e s)) -> wf s ->
  Nat.iter n d (Nat.iter n e s) = s /\ wf (Nat.iter n e s).
Proof.
  intros S wf e d n s H Hs.
  assert (forall k, wf (Nat.iter k e s)) as Hw.
  { induction k as [|k IH]; [exact Hs|]. cbn [Nat.iter nat_rect]. apply H, IH. }
  split; [|apply Hw]. induction n as [|n IH]; [reflexivity|].
  rewrite iter_succ_r. change (Nat.iter (Datatypes.S n) e s) with (e (Nat.iter n e s)).
  destruct (H _ (Hw n)) as [-> _]. exact IH.
Qed.

Lemma Forall_true : forall (A : Type) (l : list A), Forall (fun _ => True) l.
Proof. intros. apply Forall_forall. auto. Qed.

Lemma upd_length : forall l i v, length (upd l i v) = length l.
Proof. induction l as [|a l IH]; intros [|i] v; cbn; auto. Qed.
Lemma upd_words : forall w l i v, words w l -> v < 2 ^ w -> words w (upd l i v).
Proof.
  intros w l. induction l as [|a l IH]; intros [|i] v H Hv; cbn; inversion H; subst; constructor; auto.
  apply IH; auto.
Qed.
Lemma nth_words : forall w l i, words w l -> nth i l 0 < 2 ^ w.
Proof.
  intros w l. induction l as [|a l IH]; intros i H; destruct i; inversion H; subst; cbn [nth]; auto using pow2_pos.
Qed.
Lemma words_repeat0 : forall w n, words w (repeat 0 n).
Proof. intros. apply Forall_forall. intros x Hx. apply repeat_spec in Hx. subst. apply pow2_pos. Qed.
Lemma words_app : forall w a b, words w (a ++ b) <-> words w a /\ words w b.
Proof. intros. apply Forall_app. Qed.
Lemma words_rev : forall w l, words w l -> words w (rev l).
Proof. intros. apply Forall_rev; auto. Qed.

Lemma ld_fold : forall wb nr key s, bytes key -> (0 < wb)%nat ->
  words (8 * N.of_nat wb) (fst (fst s)) -> length (fst (fst s)) = nr ->
  words (8 * N.of_nat wb) (fst (fst (fold_left (ld_user_key_byte wb nr) key s))) /\
  length (fst (fst (fold_left (ld_user_key_byte wb nr) key s))) = nr.
Proof.
  intros wb nr key. induction key as [|k key IH]; intros [[st w] b] Hk Hwb Hs Hl; cbn [fold_left]; [auto|].
  inversion Hk; subst. apply IH; auto; cbn [ld_user_key_byte fst] in *.
  - destruct (w <? length st)%nat; auto. apply upd_words; auto.
    apply lor_lt; [apply shlw_lt|]. unfold byte in *.
    assert (2 ^ 8 <= 2 ^ (8 * N.of_nat wb)) by (apply pow2_mono; lia). change 256 with (2 ^ 8) in *. lia.
  - destruct (w <? length st)%nat; auto. apply upd_length.
Qed.

Lemma ld_user_key_ok : forall wb nr calls key, bytes key -> (0 < wb)%nat ->
  words (8 * N.of_nat wb) (ld_user_key wb nr calls key) /\ length (ld_user_key wb nr calls key) = nr.
Proof.
  intros wb nr calls key Hk Hwb. unfold ld_user_key.
  destruct key as [|k key]; [split; [apply words_repeat0|apply repeat_length]|].
  pose proof (ld_fold wb nr (firstn calls (k :: key)) (repeat 0 nr, 0%nat, 0%nat)) as H.
  cbn [fst] in H. destruct H as [H1 H2]; auto using bytes_firstn, words_repeat0, repeat_length.
  destruct (fold_left _ _ _) as [[st w] b]. cbn [fst] in *.
  destruct (w <? nr)%nat; auto. split; [apply upd_words; auto; apply shlw_lt|].
  rewrite upd_length; auto.
Qed.

(* solve x < 2 ^ w, and n <= w for a rotation amount n *)
Ltac wlt := first [assumption | lazymatch goal with
  | |- addw _ _ _ < _ => apply addw_lt
  | |- subw _ _ _ < _ => apply subw_lt
  | |- mulw _ _ _ < _ => apply mulw_lt
  | |- shlw _ _ _ < _ => apply shlw_lt
  | |- N.lxor _ _ < _ => apply lxor_lt; wlt
  | |- N.lor _ _ < _ => apply lor_lt; wlt
  | |- N.land _ _ < _ => first [apply land_lt_l; wlt | apply land_lt_r; wlt]
  | |- rotl _ _ _ < _ => apply rotl_lt; wlt
  | |- rotr _ _ _ < _ => apply rotr_lt; wlt
  | |- N.shiftr _ _ < _ => apply shiftr_lt; wlt
  | |- notw _ _ < _ => apply notw_lt; wlt
  | |- _ mod 32 <= 32 => apply N.lt_le_incl, N.mod_lt; discriminate
  | |- _ => first [lia | solve [auto with wlt]]
  end].
Create HintDb wlt.

Lemma addw_assoc : forall w x y z, addw w (addw w x y) z = addw w x (addw w y z).
Proof.
  intros. unfold addw. pose proof (pow2_pos w).
  rewrite N.add_mod_idemp_l, N.add_mod_idemp_r by lia. f_equal. lia.
Qed.
Lemma addw_swap : forall w x y z, addw w (addw w x y) z = addw w (addw w x z) y.
Proof. intros. rewrite !addw_assoc, (addw_comm w y z). reflexivity. Qed.

(* rewrite with the inverse laws until nothing changes *)
Ltac winv := repeat first
  [ rewrite lxor_cancel_r | rewrite lxor_cancel_l
  | rewrite subw_addw by wlt | rewrite addw_subw by wlt
  | rewrite rotr_rotl by wlt | rewrite rotl_rotr by wlt ].

Lemma addw_flat : forall w x y z, (x + addw w y z) mod 2 ^ w = (x + y + z) mod 2 ^ w.
Proof. intros. unfold addw. pose proof (pow2_pos w). rewrite N.add_mod_idemp_r by lia. f_equal. lia. Qed.
(* equality of sums modulo 2^w, up to associativity and commutativity *)
Ltac addw_ac := rewrite ?addw_assoc;
  match goal with |- addw ?w ?x ?y = addw ?w ?x' ?y' => change ((x + y) mod 2 ^ w = (x' + y') mod 2 ^ w) end;
  rewrite ?addw_flat; f_equal; lia.

Lemma lt_mono : forall x a b, x < 2 ^ a -> a <= b -> x < 2 ^ b.
Proof. intros x a b H Hab. pose proof (pow2_mono a b Hab). lia. Qed.

(* a loop over a list state *)
Lemma word_inverse_fold : forall (K : Type) w n (e d : list N -> K -> list N) ks,
  (forall k, In k ks -> word_inverse w n (fun s => e s k) (fun s => d s k)) ->
  word_inverse w n (fun s => fold_left e ks s) (fun s => fold_left d (rev ks) s).
Proof.
  intros K w n e d ks H ws Hl Hw.
  assert (Forall (fun k => In k ks) ks) as Hk by (apply Forall_forall; auto).
  destruct (fold_inverse _ K (fun s => length s = n /\ words w s) (fun k => In k ks) e d ks ws) as [H1 H2]; auto.
  { intros s k [L1 L2] Ik. destruct (H k Ik s L1 L2) as (A & B & C). auto. }
  split; [exact H1|]. split; [exact H2|].
  apply (fold_wf _ K (fun s => length s = n /\ words w s) (fun k => In k ks)); auto.
  - intros s k [L1 L2] Ik. destruct (H k Ik s L1 L2) as (A & B & C). auto.
  - apply Forall_rev, Hk.
Qed.

(* 16-bit halves of a 32-bit word *)
Lemma halves_join : forall h l, h < 2 ^ 16 -> l < 2 ^ 16 ->
  N.shiftr (N.lor (shlw 32 h 16) l) 16 = h /\ N.land (N.lor (shlw 32 h 16) l) 0xFFFF = l.
Proof.
  intros h l Hh Hl. unfold shlw. rewrite N.shiftl_mul_pow2, N.mod_small by (change (2 ^ 32) with (2 ^ 16 * 2 ^ 16); nia).
  rewrite <- N.shiftl_mul_pow2, lor_add by exact Hl.
  rewrite (land_low _ 16) by reflexivity. rewrite shiftr_div.
  change (2 ^ 16) with 65536 in *. lia.
Qed.
Lemma join_halves : forall x, x < 2 ^ 32 -> N.lor (shlw 32 (N.shiftr x 16) 16) (N.land x 0xFFFF) = x.
Proof.
  intros x Hx. rewrite (land_low _ 16) by reflexivity. rewrite shiftr_div. unfold shlw.
  assert (x / 2 ^ 16 < 2 ^ 16) by (change (2 ^ 32) with 4294967296 in *; change (2 ^ 16) with 65536; lia).
  rewrite N.shiftl_mul_pow2, N.mod_small by (change (2 ^ 32) with (2 ^ 16 * 2 ^ 16); nia).
  rewrite <- N.shiftl_mul_pow2, lor_add by apply mod_lt_pow2.
  change (2 ^ 16) with 65536. lia.
Qed.
Lemma hi_half_lt : forall x, x < 2 ^ 32 -> N.shiftr x 16 < 2 ^ 16.
Proof.
  intros x Hx. rewrite shiftr_div. apply N.div_lt_upper_bound; [discriminate|exact Hx].
Qed.
Lemma lo_half_lt : forall x, N.land x 0xFFFF < 2 ^ 16.
Proof. intro x. apply land_lt_r. reflexivity. Qed.

(* equalities of xor expressions *)
Lemma testbit_lxor : forall a b i, N.testbit (N.lxor a b) i = xorb (N.testbit a i) (N.testbit b i).
Proof. exact N.lxor_spec. Qed.
Ltac xor_ring := apply N.bits_inj; intro; rewrite ?N.lxor_spec; ring.

Lemma rotl_lxor : forall w x y n, x < 2 ^ w -> y < 2 ^ w -> n <= w ->
  rotl w (N.lxor x y) n = N.lxor (rotl w x n) (rotl w y n).
Proof.
  intros w x y n Hx Hy Hn. apply N.bits_inj. intro i.
  rewrite N.lxor_spec, !testbit_rotl by (auto using lxor_lt).
  rewrite ?N.lxor_spec. destruct (i <? w); cbn; [|reflexivity].
  repeat match goal with |- context [if ?c then _ else _] => destruct c end; rewrite ?N.lxor_spec; reflexivity.
Qed.

Lemma rotl_compl : forall w x n, n <= w -> rotl w x (w - n) = rotr w x n.
Proof. intros. unfold rotl, rotr. rewrite N.lor_comm. f_equal. f_equal. lia. Qed.
Lemma rotl_rotl_compl : forall w x n, x < 2 ^ w -> n <= w -> rotl w (rotl w x n) (w - n) = x.
Proof. intros. rewrite rotl_compl by lia. apply rotr_rotl; auto. Qed.

Lemma word_inverse_comp : forall w n f g f' g', word_inverse w n f g -> word_inverse w n f' g' ->
  word_inverse w n (fun s => f' (f s)) (fun s => g (g' s)).
Proof.
  intros w n f g f' g' H H' ws Hl Hw. destruct (H ws Hl Hw) as (A & (B1 & B2) & C).
  destruct (H' (f ws) B1 B2) as (A' & B' & _). destruct (H' ws Hl Hw) as (_ & _ & (C1 & C2)).
  rewrite A', A. split; [reflexivity|]. split; [exact B'|]. apply (H (g' ws) C1 C2).
Qed.

Lemma inverse_bytes : forall n f g, word_inverse 8 n f g -> inverse_on n f g.
Proof.
  intros n f g H x Hx Hl. destruct (H x Hl Hx) as (A & (B1 & B2) & (C1 & C2)).
  split; [exact A|]. split; split; assumption.
Qed.

(* layers over a list state *)
Lemma word_inverse_map : forall w n f g, (forall x, x < 2 ^ w -> g (f x) = x /\ f x < 2 ^ w /\ g x < 2 ^ w) ->
  word_inverse w n (map f) (map g).
Proof.
  intros w n f g H ws Hl Hw. rewrite map_map, !map_length. unfold words in *. split.
  - clear Hl. induction Hw as [|x l Hx _ IH]; [reflexivity|]. cbn [map]. rewrite IH, (proj1 (H x Hx)). reflexivity.
  - split; (split; [exact Hl|]); apply Forall_map; revert Hw; apply Forall_impl; intros x Hx; apply H, Hx.
Qed.

Lemma xorl_words : forall w a b, words w a -> words w b -> words w (xorl a b).
Proof.
  intros w a. induction a as [|x a IH]; intros b Ha Hb; [constructor|]. destruct b as [|y b]; [constructor|].
  inversion Ha; inversion Hb; subst. cbn [xorl]. constructor; [apply lxor_lt; assumption|apply IH; assumption].
Qed.
Lemma word_inverse_xor : forall w n k, length k = n -> words w k ->
  word_inverse w n (fun s => xorl s k) (fun s => xorl s k).
Proof.
  intros w n k Hk Hw ws Hl Hs. rewrite xorl_involutive by lia. split; [reflexivity|].
  split; (split; [rewrite xorl_length; lia|apply xorl_words; assumption]).
Qed.

Lemma words_perm : forall w p l, words w l -> words w (perm p l).
Proof. intros w p l H. apply Forall_map, Forall_forall. intros i _. apply nth_words, H. Qed.
Lemma perm_seq : forall s, perm (seq 0 (length s)) s = s.
Proof.
  intro s. unfold perm. induction s as [|a s IH]; [reflexivity|]. cbn [length seq map nth].
  rewrite <- seq_shift, map_map. cbn [nth]. rewrite IH. reflexivity.
Qed.
Lemma word_inverse_perm : forall w n p q, length p = n -> length q = n ->
  forallb (fun j => Nat.ltb j n) q = true -> map (fun j => nth j p 0%nat) q = seq 0 n ->
  word_inverse w n (perm p) (perm q).
Proof.
  intros w n p q Hp Hq Hb He ws Hl Hw.
  split; [|split; (split; [unfold perm; rewrite map_length; assumption|apply words_perm, Hw])].
  rewrite <- (perm_seq ws) at 2. rewrite Hl, <- He. unfold perm. rewrite map_map. apply map_ext_in.
  intros j Hj. rewrite forallb_forall in Hb. specialize (Hb j Hj). apply Nat.ltb_lt in Hb.
  rewrite (nth_indep _ 0 (nth 0%nat ws 0)) by (rewrite map_length; lia).
  rewrite (map_nth (fun i => nth i ws 0)). reflexivity.
Qed.
