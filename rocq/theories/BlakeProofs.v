(* BLAKE2: the code against RFC 7693. *)
From Verif Require Import Words EncSpec TaskModel CipherBase CipherLib StreamModel HashModel UtilModel Blake2Model BlakeSpec RcProofs.
From Coq Require Import List PeanoNat Lia.
Open Scope N_scope.

Lemma ror_lt : forall w x n, x < 2 ^ w -> n <= w -> ror w x n < 2 ^ w.
Proof.
  intros w x n Hx Hn. unfold ror. pose proof (N.mod_lt x (2 ^ n) ltac:(apply N.pow_nonzero; discriminate)) as M.
  assert (2 ^ w = 2 ^ n * 2 ^ (w - n)) as E by (rewrite <- N.pow_add_r; f_equal; lia).
  assert (x / 2 ^ n < 2 ^ (w - n)) as D by (apply N.div_lt_upper_bound; [apply N.pow_nonzero; discriminate|lia]).
  rewrite E. revert M D. generalize (x mod 2 ^ n), (x / 2 ^ n), (2 ^ n), (2 ^ (w - n)). intros r q P Q M D. nia.
Qed.
Lemma rot_ok : forall w x n, x < 2 ^ w -> n <= w -> blake2_ROT w x n = ror w x n.
Proof.
  intros w x n Hx Hn. unfold blake2_ROT, ror, shlw. rewrite N.shiftr_div_pow2, N.shiftl_mul_pow2.
  assert ((x * 2 ^ (w - n)) mod 2 ^ w = x mod 2 ^ n * 2 ^ (w - n)) as ->.
  { replace (2 ^ w) with (2 ^ n * 2 ^ (w - n)) by (rewrite <- N.pow_add_r; f_equal; lia). apply N.mul_mod_distr_r; apply N.pow_nonzero; discriminate. }
  rewrite N.lor_comm. rewrite <- N.shiftl_mul_pow2. rewrite lor_add; [rewrite N.shiftl_mul_pow2; lia|].
  apply N.div_lt_upper_bound; [apply N.pow_nonzero; discriminate|]. rewrite <- N.pow_add_r. replace (n + (w - n)) with w by lia. exact Hx.
Qed.

(* the array v of the code holds the words V *)
Definition rep (w : N) (v : list N) (V : nat -> N) : Prop := length v = 16%nat /\ forall i, (i < 16)%nat -> nth i v 0 = V i /\ V i < 2 ^ w.
Lemma rep_upd : forall w v V i x X, rep w v V -> (i < 16)%nat -> x = X -> X < 2 ^ w -> rep w (upd v i x) (assign V i X).
Proof.
  intros w v V i x X [L R] Hi -> HX. split; [rewrite upd_length; exact L|]. intros j Hj. rewrite nth_upd by lia. unfold assign. rewrite (Nat.eqb_sym j i). destruct (Nat.eqb i j); [split; [reflexivity|exact HX]|apply R; exact Hj].
Qed.
Lemma rep_upd2 : forall w v V i x y X, rep w v V -> (i < 16)%nat -> y = X -> X < 2 ^ w -> rep w (upd (upd v i x) i y) (assign V i X).
Proof.
  intros w v V i x y X [L R] Hi -> HX. split; [rewrite !upd_length; exact L|]. intros j Hj. rewrite !nth_upd by (rewrite ?upd_length; lia). unfold assign. rewrite (Nat.eqb_sym j i). destruct (Nat.eqb i j); [split; [reflexivity|exact HX]|apply R; exact Hj].
Qed.
Lemma rep_get : forall w v V i, rep w v V -> (i < 16)%nat -> nth i v 0 = V i.
Proof. intros w v V i [_ R] Hi. apply R. exact Hi. Qed.
Lemma rep_lt : forall w v V i, rep w v V -> (i < 16)%nat -> V i < 2 ^ w.
Proof. intros w v V i [_ R] Hi. apply R. exact Hi. Qed.
Lemma add_lt : forall w x, x mod 2 ^ w < 2 ^ w.
Proof. intros. apply N.mod_lt. apply N.pow_nonzero. discriminate. Qed.
Lemma add3 : forall w a b x, addw w a (addw w b x) = (a + b + x) mod 2 ^ w.
Proof. intros. unfold addw. rewrite N.add_mod_idemp_r by (apply N.pow_nonzero; discriminate). f_equal. lia. Qed.

Section Mix.
Variables (w : N) (R : list N).
Hypothesis HR : forall i, nth i R 0 <= w.
Lemma mix_step : forall v V i j k, rep w v V -> (i < 16)%nat -> (j < 16)%nat ->
  rep w (let v1 := upd v i (xor (nth i v 0) (nth j v 0)) in upd v1 i (blake2_ROT w (nth i v1 0) (nth k R 0))) (assign V i (ror w (N.lxor (V i) (V j)) (nth k R 0))).
Proof.
  intros v V i j k P Hi Hj. cbv zeta. assert (N.lxor (V i) (V j) < 2 ^ w) as X by (apply lxor_lt; eapply rep_lt; eassumption).
  apply rep_upd2; [exact P|exact Hi| |apply ror_lt; [exact X|apply HR]]. rewrite nth_upd by (destruct P as [L _]; lia). rewrite Nat.eqb_refl.
  rewrite (rep_get w v V i P Hi), (rep_get w v V j P Hj). apply rot_ok; [exact X|apply HR].
Qed.
Lemma add_step : forall v V i j, rep w v V -> (i < 16)%nat -> (j < 16)%nat -> rep w (upd v i (addw w (nth i v 0) (nth j v 0))) (assign V i ((V i + V j) mod 2 ^ w)).
Proof. intros v V i j P Hi Hj. apply rep_upd; [exact P|exact Hi| |apply add_lt]. rewrite (rep_get w v V i P Hi), (rep_get w v V j P Hj). reflexivity. Qed.
Lemma add3_step : forall v V i j x, rep w v V -> (i < 16)%nat -> (j < 16)%nat -> rep w (upd v i (addw w (nth i v 0) (addw w (nth j v 0) x))) (assign V i ((V i + V j + x) mod 2 ^ w)).
Proof. intros v V i j x P Hi Hj. apply rep_upd; [exact P|exact Hi| |apply add_lt]. rewrite (rep_get w v V i P Hi), (rep_get w v V j P Hj). apply add3. Qed.
Lemma G_ok : forall v V a b c d x y, rep w v V -> (a < 16)%nat -> (b < 16)%nat -> (c < 16)%nat -> (d < 16)%nat ->
  rep w (blake2_G w R a b c d x y v) (mix w (nth 0 R 0) (nth 1 R 0) (nth 2 R 0) (nth 3 R 0) V a b c d x y).
Proof.
  intros v V a b c d x y P Ha Hb Hc Hd. unfold blake2_G, mix. cbv zeta.
  apply (mix_step _ _ b c 3%nat); [|assumption|assumption].
  apply (add_step _ _ c d); [|assumption|assumption].
  apply (mix_step _ _ d a 2%nat); [|assumption|assumption].
  apply (add3_step _ _ a b y); [|assumption|assumption].
  apply (mix_step _ _ b c 1%nat); [|assumption|assumption].
  apply (add_step _ _ c d); [|assumption|assumption].
  apply (mix_step _ _ d a 0%nat); [|assumption|assumption].
  apply (add3_step _ _ a b x); assumption.
Qed.
End Mix.

(* the eight calls of round i *)
Definition round_calls (i : nat) : list g_call :=
  let r := (i mod 10)%nat in
  [C 0 4 8 12 r 0 r 1; C 1 5 9 13 r 2 r 3; C 2 6 10 14 r 4 r 5; C 3 7 11 15 r 6 r 7;
   C 0 5 10 15 r 8 r 9; C 1 6 11 12 r 10 r 11; C 2 7 8 13 r 12 r 13; C 3 4 9 14 r 14 r 15].
Record agree (p : blake2_params) (V : variant) : Prop := mkAgree {
  ag_w : b_w p = V_w V;
  ag_wb : b_wb p = word_bytes V;
  ag_pos : (0 < b_wb p)%nat;
  ag_bb : b_bb p = block_bytes V;
  ag_R : (forall i, nth i (b_R p) 0 <= b_w p) /\ nth 0 (b_R p) 0 = V_R1 V /\ nth 1 (b_R p) 0 = V_R2 V /\ nth 2 (b_R p) 0 = V_R3 V /\ nth 3 (b_R p) 0 = V_R4 V;
  ag_IV : b_IV p = V_IV V /\ length (b_IV p) = 8%nat /\ forall i, nth i (b_IV p) 0 < 2 ^ b_w p;
  ag_calls : b_calls p = concat (map round_calls (seq 0 (V_r V)));
  ag_get : forall d, octets d -> (b_wb p <= length d)%nat -> b_get p d = le_val (firstn (b_wb p) d);
  ag_rev : forall x, x < 2 ^ b_w p -> be_bytes (b_wb p) (b_rev p x) = le_bytes (b_wb p) x
}.
Lemma little : forall l, little_endian l = le_val l.
Proof. induction l as [|b l IH]; cbn [little_endian]; [reflexivity|]. rewrite IH. unfold le_val. cbn [rev]. unfold be_val. rewrite fold_left_app. cbn [fold_left]. lia. Qed.
Lemma sigma_lt : forall r x, (nth x (nth r SIGMA []) 0 < 16)%nat.
Proof.
  intros r x. assert (forall l, Forall (fun n => n < 16)%nat l -> (nth x l 0 < 16)%nat) as G.
  { intros l F. destruct (Nat.lt_ge_cases x (length l)); [apply (proj1 (Forall_forall _ _) F); apply nth_In; assumption|rewrite nth_overflow by assumption; lia]. }
  apply G. assert (Forall (Forall (fun n => n < 16)%nat) SIGMA) as F by (unfold SIGMA; repeat constructor).
  destruct (Nat.lt_ge_cases r (length SIGMA)); [apply (proj1 (Forall_forall _ _) F); apply nth_In; assumption|rewrite nth_overflow by assumption; constructor].
Qed.
Lemma fold_concat : forall (A B : Type) (f : A -> B -> A) ls a, fold_left f (concat ls) a = fold_left (fun a l => fold_left f l a) ls a.
Proof. induction ls as [|l ls IH]; intro a; cbn; [reflexivity|]. rewrite fold_left_app. apply IH. Qed.
Lemma fold_map : forall (A B C : Type) (f : A -> B -> A) (g : C -> B) l a, fold_left f (map g l) a = fold_left (fun a x => f a (g x)) l a.
Proof. induction l as [|x l IH]; intro a; cbn; [reflexivity|]. apply IH. Qed.
Lemma fold_two : forall (A B C : Type) (P : A -> B -> Prop) (f : A -> C -> A) (g : B -> C -> B) l a b,
  (forall a b c, In c l -> P a b -> P (f a c) (g b c)) -> P a b -> P (fold_left f l a) (fold_left g l b).
Proof. induction l as [|c l IH]; intros a b H K; cbn; [exact K|]. apply IH; [intros; apply H; [right; assumption|assumption]|apply H; [left; reflexivity|exact K]]. Qed.

(* the array h of the code holds the words H *)
Definition rep8 (w : N) (h : list N) (H : nat -> N) : Prop := length h = 8%nat /\ forall i, (i < 8)%nat -> nth i h 0 = H i /\ H i < 2 ^ w.
Lemma nth_map_seq : forall (f : nat -> N) n i, (i < n)%nat -> nth i (map f (seq 0 n)) 0 = f i.
Proof. intros f n i Hi. rewrite nth_indep with (d' := f 0%nat) by (rewrite map_length, seq_length; exact Hi). rewrite map_nth. rewrite seq_nth by exact Hi. reflexivity. Qed.
Lemma close : forall w h H v U, rep8 w h H -> rep w v U ->
  rep8 w (map (fun i => xor (nth i h 0) (xor (nth i v 0) (nth (i + 8) v 0))) (seq 0 8)) (fun i => N.lxor (H i) (N.lxor (U i) (U (i + 8)%nat))).
Proof.
  intros w h H v U [Lh Rh] R. split; [rewrite map_length, seq_length; reflexivity|]. intros i Hi. rewrite nth_map_seq by exact Hi.
  rewrite (rep_get w _ _ i R ltac:(lia)), (rep_get w _ _ (i + 8) R ltac:(lia)).
  destruct (Rh i Hi) as [-> B]. split; [reflexivity|]. repeat apply lxor_lt; [exact B|eapply rep_lt; [exact R|lia]|eapply rep_lt; [exact R|lia]].
Qed.
Section Blake2.
Variables (p : blake2_params) (V : variant).
Hypothesis AG : agree p V.
Let w := b_w p.
Lemma F_ok : forall h H m block t f, rep8 w h H -> (forall i, (i < 16)%nat -> nth i m 0 = word_at V block i) -> t / 2 ^ w < 2 ^ w ->
  rep8 w (blake2_F p h m (t mod 2 ^ w) (t / 2 ^ w) f) (compress V H block t f).
Proof.
  intros h H m block t f [Lh Rh] Rm Ht. destruct AG as [Ew _ _ _ (HR & E1 & E2 & E3 & E4) (EI & LI & BI) Ec _ _]. fold w in Ew, HR, BI.
  unfold blake2_F, compress. fold w. rewrite <- Ew, <- E1, <- E2, <- E3, <- E4, <- EI, Ec. cbv zeta.
  match goal with |- rep8 _ (map (fun i => xor _ (xor (nth i ?v _) _)) _) (fun i => N.lxor _ (N.lxor (?U i) _)) => assert (rep w v U) as R end.
  { rewrite fold_concat, fold_map. apply (fold_two _ _ _ (rep w)).
    - intros v U i _ P. unfold round_calls. cbv zeta. cbn [fold_left c_a c_b c_c c_d c_r c_x c_r' c_y].
      change blake2_sigma with SIGMA. rewrite !Rm by apply sigma_lt.
      repeat (apply G_ok; [exact HR| |lia|lia|lia|lia]). exact P.
    - assert (rep w (h ++ b_IV p) (fun i => if (i <? 8)%nat then H i else nth (i - 8) (b_IV p) 0)) as P0.
      { split; [rewrite app_length; lia|]. intros i Hi. destruct (Nat.ltb_spec i 8) as [L|L].
        - rewrite app_nth1 by lia. apply Rh. exact L.
        - rewrite app_nth2 by lia. rewrite Lh. split; [reflexivity|apply BI]. }
      assert (forall v U f, rep w v U -> rep w (if f : bool then upd v 14 (notw w (nth 14 v 0)) else v) (if f then assign U 14 (N.lxor (U 14%nat) (2 ^ w - 1)) else U)) as PF.
      { intros v U [|] P; [|exact P]. apply rep_upd; [exact P|lia| |].
        - rewrite (rep_get w v U 14 P ltac:(lia)). unfold notw. rewrite N.lxor_comm. f_equal. rewrite N.ones_equiv. lia.
        - apply lxor_lt; [eapply rep_lt; [exact P|lia]|]. pose proof (N.pow_nonzero 2 w ltac:(discriminate)). lia. }
      apply PF. apply rep_upd; [apply rep_upd; [exact P0|lia| |]|lia| |].
      + rewrite (rep_get w _ _ 12 P0 ltac:(lia)). reflexivity.
      + apply lxor_lt; [apply (rep_lt w _ _ 12 P0); lia|apply add_lt].
      + rewrite nth_upd by (rewrite app_length; lia). cbn [Nat.eqb]. rewrite (rep_get w _ _ 13 P0 ltac:(lia)). reflexivity.
      + apply lxor_lt; [apply (rep_lt w _ _ 13 P0); lia|exact Ht]. }
  apply (close w h H _ _ (conj Lh Rh) R).
Qed.
End Blake2.
