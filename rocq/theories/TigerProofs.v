(* Tiger: the code against TigerSpec.v. *)
From Verif Require Import Words EncSpec TaskModel CipherBase CipherLib RcProofs StreamModel StreamProofs HashModel HashSpec HashProofs HashProofs2 HashProofs3 HashSim TigerTables TigerModel TigerSpec.
From Verif Require UtilModel UtilProofs.
From Coq Require Import PeanoNat ZArith Lia.
Open Scope N_scope.

Lemma c_byte : forall i x, (i < 8)%nat -> x < 2 ^ 64 -> tiger_c i x = byte_of (N.of_nat i) x.
Proof.
  intros i x Hi Hx. unfold byte_of. change 256 with (2 ^ 8) at 1. rewrite <- N.pow_mul_r. rewrite <- N.shiftr_div_pow2.
  assert (forall k, shr (and x (N.shiftl 0xFF k)) k = N.shiftr x k mod 256) as M.
  { intro k. rewrite N.shiftr_land, N.shiftr_shiftl_l by reflexivity. rewrite N.sub_diag, N.shiftl_0_r. change 0xFF with (N.ones 8). rewrite N.land_ones. reflexivity. }
  destruct i as [|[|[|[|[|[|[|[|i]]]]]]]]; try lia; try (apply M); unfold tiger_c.
  - change 0xFF with (N.ones 8). rewrite N.land_ones. reflexivity.
  - change (8 * N.of_nat 7) with 56. symmetry. apply N.mod_small. rewrite N.shiftr_div_pow2. apply N.div_lt_upper_bound; [discriminate|exact Hx].
Qed.
Lemma byte_small : forall n x, byte_of n x < 256.
Proof. intros. apply N.mod_lt. discriminate. Qed.
Lemma rev64_val : forall x, x < 2 ^ 64 -> tiger_rev64 x = be_val (le_bytes 8 x).
Proof.
  intros x Hx. rewrite <- UtilProofs.le_bytes_nth. rewrite <- (UtilProofs.or_all 8 (fun i => (x / 2 ^ (8 * N.of_nat i)) mod 256)) by (intros; apply UtilProofs.byte_lt).
  cbn [seq fold_left]. rewrite N.lor_0_l. unfold tiger_rev64. rewrite !c_byte by (try exact Hx; lia). unfold byte_of.
  assert (forall n, 256 ^ n = 2 ^ (8 * n)) as P by (intro n; change 256 with (2 ^ 8); rewrite N.pow_mul_r; reflexivity). rewrite !P.
  assert (forall i k, k <= 56 -> shlw 64 ((x / 2 ^ (8 * N.of_nat i)) mod 256) k = N.shiftl ((x / 2 ^ (8 * N.of_nat i)) mod 256) k) as Sh.
  { intros i k Hk. rewrite <- (N.shiftl_0_r (_ mod 256)) at 1. rewrite UtilProofs.shl_low by lia. reflexivity. }
  rewrite !Sh by lia. cbn [Nat.sub]. change (N.of_nat 0) with 0. rewrite N.shiftl_0_r. reflexivity.
Qed.
Lemma rev64_bytes : forall s, bytes s -> length s = 8%nat -> tiger_rev64 (be_val s) = le_val s.
Proof.
  intros s Hs L. assert (be_val s < 2 ^ 64) as B by (pose proof (be_val_lt s Hs) as X; rewrite L in X; exact X).
  rewrite rev64_val by exact B. unfold le_bytes, le_val. rewrite <- L. rewrite be_bytes_val by exact Hs. reflexivity.
Qed.
Lemma rev64_rev : forall s, bytes s -> length s = 8%nat -> tiger_rev64 (le_val s) = be_val s.
Proof.
  intros s Hs L. unfold le_val. rewrite rev64_bytes; [unfold le_val; rewrite rev_involutive; reflexivity|apply Forall_rev; exact Hs|rewrite rev_length; exact L].
Qed.
Lemma rev64_out : forall x, x < 2 ^ 64 -> be_bytes 8 (tiger_rev64 x) = le_bytes 8 x.
Proof.
  intros x H. rewrite rev64_val by exact H. rewrite <- (le_bytes_length 8 x) at 1. apply be_bytes_val. apply le_bytes_bytes.
Qed.
Lemma tiger_ord : forall B, bytes B -> length B = 64%nat -> map tiger_rev64 (load_be 8 8 B) = le_words 8 B.
Proof.
  intros B Hb L. rewrite (le_words_load 8 8) by (try lia; exact L). unfold load_be, load_le. rewrite map_map. apply map_ext_in.
  intros i Hi. apply in_seq in Hi. apply rev64_bytes; [apply bytes_slice, Hb|]. unfold slice. rewrite firstn_length, skipn_length. lia.
Qed.
(* bytes 48 to 55 of the last block read the same in both directions *)
Definition mirrored (X : list N) : Prop := be_val (slice X 48 8) = le_val (slice X 48 8).
Lemma tiger_fix_ok : forall X total, bytes X -> length X = 56%nat -> total < 2 ^ 64 -> mirrored X ->
  map tiger_rev64 (tiger_fix (load_be 8 8 (X ++ be_bytes 8 total))) = le_words 8 (X ++ le_bytes 8 total).
Proof.
  intros X total Hb L Ht G. rewrite (le_words_load 8 8) by (try lia; rewrite app_length, le_bytes_length; lia). unfold tiger_fix. set (Y := load_be 8 8 (X ++ be_bytes 8 total)).
  assert (length Y = 8%nat) as LY by apply load_be_length.
  apply list_ext; [rewrite map_length, !upd_length, LY; unfold load_le; rewrite map_length, seq_length; reflexivity|].
  intros i Hi. rewrite map_length, !upd_length, LY in Hi.
  assert (nth i (load_le 8 8 (X ++ le_bytes 8 total)) 0 = le_val (slice (X ++ le_bytes 8 total) (i * 8) 8)) as ->.
  { unfold load_le. rewrite (nth_indep _ 0 (le_val (slice (X ++ le_bytes 8 total) (0 * 8) 8))) by (rewrite map_length, seq_length; exact Hi).
    rewrite (map_nth (fun i => le_val (slice (X ++ le_bytes 8 total) (i * 8) 8)) (seq 0 8) 0%nat i), seq_nth by exact Hi. reflexivity. }
  rewrite (nth_indep _ 0 (tiger_rev64 0)) by (rewrite map_length, !upd_length, LY; exact Hi). rewrite map_nth.
  assert (forall j, (j < 8)%nat -> nth j Y 0 = be_val (slice (X ++ be_bytes 8 total) (j * 8) 8)) as NY by (intros; apply nth_load_be; assumption).
  assert (forall j, (j < 7)%nat -> slice (X ++ be_bytes 8 total) (j * 8) 8 = slice X (j * 8) 8 /\ slice (X ++ le_bytes 8 total) (j * 8) 8 = slice X (j * 8) 8 /\
            bytes (slice X (j * 8) 8) /\ length (slice X (j * 8) 8) = 8%nat) as SX.
  { intros j Hj. split; [apply slice_app_l; lia|]. split; [apply slice_app_l; lia|]. split; [apply bytes_slice; exact Hb|]. unfold slice. rewrite firstn_length, skipn_length. lia. }
  rewrite !nth_upd by (rewrite ?upd_length, LY; lia).
  destruct (Nat.eqb_spec 7 i) as [<-|N7].
  - cbn [Nat.eqb]. rewrite NY by lia. rewrite !slice_app_r by lia. rewrite L. change (7 * 8 - 56)%nat with 0%nat. unfold slice. rewrite !skipn_O.
    rewrite !firstn_all2 by (rewrite ?be_bytes_length, ?le_bytes_length; lia).
    rewrite rev64_bytes by (try apply be_bytes_bytes; apply be_bytes_length). rewrite rev64_rev by (try apply be_bytes_bytes; apply be_bytes_length).
    unfold le_val, le_bytes. rewrite rev_involutive. reflexivity.
  - destruct (Nat.eqb_spec 6 i) as [<-|N6].
    + rewrite NY by lia. destruct (SX 6%nat ltac:(lia)) as (E1 & E2 & E3 & E4). rewrite E1, E2. rewrite rev64_bytes by assumption. rewrite rev64_rev by assumption. exact G.
    + rewrite NY by lia. destruct (SX i ltac:(lia)) as (E1 & E2 & E3 & E4). rewrite E1, E2. apply rev64_bytes; assumption.
Qed.
Lemma sub_minus : forall x y, subw 64 x y = minus64 x y.
Proof.
  intros x y. unfold subw, minus64. apply N2Z.inj. rewrite Z2N.id by (apply Z.mod_pos_bound; reflexivity).
  assert (y mod 2 ^ 64 < 2 ^ 64) as B by (apply N.mod_lt; discriminate).
  rewrite N2Z.inj_mod, N2Z.inj_add, N2Z.inj_sub by lia. rewrite N2Z.inj_mod. change (Z.of_N (2 ^ 64)) with (2 ^ 64)%Z.
  replace (Z.of_N x + (2 ^ 64 - Z.of_N y mod 2 ^ 64))%Z with ((Z.of_N x - Z.of_N y mod 2 ^ 64) + 1 * 2 ^ 64)%Z by ring.
  rewrite Z.mod_add by discriminate. apply Zminus_mod_idemp_r.
Qed.
Lemma minus_lt : forall x y, minus64 x y < 2 ^ 64.
Proof. intros. rewrite <- sub_minus. apply N.mod_lt. discriminate. Qed.
Lemma not_not : forall x, notw 64 x = not64 x.
Proof. intro x. unfold notw, not64. rewrite N.lxor_comm. reflexivity. Qed.
Definition w64 (x : N) : Prop := x < 2 ^ 64.
Lemma shl19 : forall x, shlw 64 (notw 64 x) 19 = (not64 x * 2 ^ 19) mod 2 ^ 64.
Proof. intro x. unfold shlw. rewrite N.shiftl_mul_pow2, not_not. reflexivity. Qed.
Lemma shr23 : forall x, shr (notw 64 x) 23 = not64 x / 2 ^ 23.
Proof. intro x. rewrite N.shiftr_div_pow2, not_not. reflexivity. Qed.
Lemma upd_replace : forall l i y, (i < length l)%nat -> upd l i y = replace_word l i y.
Proof.
  induction l as [|x l IH]; intros i y H; [cbn in H; lia|]. destruct i as [|i]; [reflexivity|].
  cbn [upd]. rewrite IH by (cbn in H; lia). reflexivity.
Qed.
Definition line_ok (s t : nat * (list N -> N)) : Prop :=
  fst s = fst t /\ (fst s < 8)%nat /\ (forall w, snd s w = snd t w) /\ (forall w, (forall i, w64 (nth i w 0)) -> w64 (snd t w)).
Lemma lines_ok : Forall2 line_ok tiger_key_steps schedule_lines.
Proof.
  unfold tiger_key_steps, schedule_lines.
  repeat (constructor; [split; [reflexivity|]; split; [cbn [fst]; lia|]; split;
    [intro w; cbn [snd]; rewrite ?shl19, ?shr23, ?sub_minus; reflexivity
    |intros w H; cbn [snd]; first [apply minus_lt | apply N.mod_lt; discriminate | apply lxor_lt; apply H]]|]).
  constructor.
Qed.
Lemma nth_w64 : forall l, Forall w64 l <-> forall i, w64 (nth i l 0).
Proof.
  intro l. split.
  - intros H i. destruct (Nat.lt_ge_cases i (length l)) as [L|L]; [rewrite Forall_forall in H; apply H, nth_In, L|rewrite nth_overflow by exact L; reflexivity].
  - intro H. apply Forall_forall. intros x Hx. apply (In_nth _ _ 0) in Hx as (i & _ & <-). apply H.
Qed.
Lemma sched_lines : forall ss ts, Forall2 line_ok ss ts -> forall xs, length xs = 8%nat -> Forall w64 xs ->
  fold_left (fun x s => upd x (fst s) (snd s x)) ss xs = fold_left (fun w line => replace_word w (fst line) (snd line w)) ts xs /\
  Forall w64 (fold_left (fun w line => replace_word w (fst line) (snd line w)) ts xs) /\
  length (fold_left (fun w line => replace_word w (fst line) (snd line w)) ts xs) = 8%nat.
Proof.
  intros ss ts H. induction H as [|s t ss ts Hl _ IH]; intros xs L F; [cbn [fold_left]; auto|]. cbn [fold_left].
  destruct Hl as (E1 & E2 & E3 & E4). rewrite E3, <- E1. rewrite upd_replace by lia.
  apply IH; unfold replace_word.
  - rewrite app_length, firstn_length. cbn [length]. rewrite skipn_length. lia.
  - pose proof (proj1 (nth_w64 xs) F) as F'. rewrite <- (firstn_skipn (fst s) xs) in F. apply Forall_app in F as [F1 F2]. apply Forall_app. split; [exact F1|].
    constructor; [apply E4, F'|]. destruct (Nat.lt_ge_cases (S (fst s)) (length xs)).
    + rewrite <- (firstn_skipn (S (fst s)) xs) in F'. apply nth_w64 in F'. apply Forall_app in F'. apply F'.
    + rewrite skipn_all2 by lia. constructor.
Qed.
Lemma sched_eq : forall xs, length xs = 8%nat -> Forall w64 xs -> tiger_key_sched xs = key_schedule xs.
Proof. intros xs L F. apply (sched_lines _ _ lines_ok xs L F). Qed.
Lemma sched_ok : forall xs, length xs = 8%nat -> Forall w64 xs -> Forall w64 (key_schedule xs) /\ length (key_schedule xs) = 8%nat.
Proof. intros xs L F. apply (sched_lines _ _ lines_ok xs L F). Qed.
(* ---- the rounds *)
Definition three (v : list N) (i j k : nat) : N * N * N := (nth i v 0, nth j v 0, nth k v 0).
Definition cyclic (i j k : nat) : Prop := (i, j, k) = (0, 1, 2)%nat \/ (i, j, k) = (1, 2, 0)%nat \/ (i, j, k) = (2, 0, 1)%nat.
Definition state_ok (v : list N) : Prop := length v = 3%nat /\ Forall w64 v.
Lemma cyclic_next : forall i j k, cyclic i j k -> cyclic j k i.
Proof. intros i j k [E|[E|E]]; injection E as -> -> ->; unfold cyclic; auto. Qed.
Lemma add_lt : forall x y, addw 64 x y < 2 ^ 64. Proof. intros. apply N.mod_lt. discriminate. Qed.
Lemma mul_lt : forall x y, mulw 64 x y < 2 ^ 64. Proof. intros. apply N.mod_lt. discriminate. Qed.
Lemma sub_lt : forall x y, subw 64 x y < 2 ^ 64. Proof. intros. apply N.mod_lt. discriminate. Qed.
Opaque addw mulw subw minus64 plus64 times64 tiger_t1 tiger_t2 tiger_t3 tiger_t4.
Lemma round_eq : forall v i j k x m, cyclic i j k -> state_ok v -> w64 x ->
  three (tiger_round v i j k x m) j k i = Tiger_round Tiger_boxes m (three v i j k) x /\ state_ok (tiger_round v i j k x m).
Proof.
  intros v i j k x m C [L F] Hx. destruct v as [|a [|b [|c [|]]]]; try discriminate L. inversion F as [|? ? Fa F1]; subst. inversion F1 as [|? ? Fb F2]; subst. inversion F2 as [|? ? Fc F3]; subst. clear F F1 F2 F3 L.
  assert (forall y, w64 y -> w64 (N.lxor y x)) as X by (intros y Hy; apply lxor_lt; assumption).
  assert (forall y, w64 y -> forall n, (n < 8)%nat -> tiger_c n (N.lxor y x) = byte_of (N.of_nat n) (N.lxor y x)) as B by (intros y Hy n Hn; apply c_byte; [exact Hn|apply X; exact Hy]).
  destruct C as [E|[E|E]]; injection E as -> -> ->; unfold three, tiger_round, Tiger_round; cbn [upd nth];
    rewrite !B by (try assumption; lia); (split; [rewrite sub_minus; reflexivity|]);
    (split; [reflexivity|]); repeat (constructor; [first [apply mul_lt | apply sub_lt | apply X; assumption]|]); constructor.
Qed.
Lemma pass_eq : forall v i j k xs m, cyclic i j k -> state_ok v -> length xs = 8%nat -> Forall w64 xs ->
  three (tiger_pass v i j k xs m) k i j = fold_left (Tiger_round Tiger_boxes m) xs (three v i j k) /\ state_ok (tiger_pass v i j k xs m).
Proof.
  intros v i j k xs m C0 S0 L F. destruct xs as [|x0 [|x1 [|x2 [|x3 [|x4 [|x5 [|x6 [|x7 [|]]]]]]]]]; try discriminate L.
  repeat match goal with H : Forall w64 (_ :: _) |- _ => inversion H; clear H; subst end.
  pose proof (cyclic_next _ _ _ C0) as C1. pose proof (cyclic_next _ _ _ C1) as C2. unfold tiger_pass. cbn [nth fold_left].
  repeat match goal with
  | S : state_ok ?u |- context [tiger_round ?u ?a ?b ?c ?x m] =>
      let E := fresh "E" in let S' := fresh "S" in
      destruct (round_eq u a b c x m) as [E S']; [assumption|exact S|assumption|];
      rewrite <- E; clear E; revert S'; generalize (tiger_round u a b c x m); clear S; intros ? S'
  end.
  split; [reflexivity|assumption].
Qed.
Lemma three_list : forall v, length v = 3%nat -> v = let '(a, b, c) := three v 0 1 2 in [a; b; c].
Proof. intros v L. destruct v as [|a [|b [|c [|]]]]; try discriminate L. reflexivity. Qed.
Lemma words_ok : forall b, bytes b -> length b = 64%nat -> length (le_words 8 b) = 8%nat /\ Forall w64 (le_words 8 b).
Proof.
  intros b Hb L. rewrite (le_words_load 8 8) by (try lia; exact L). unfold load_le. split; [rewrite map_length, seq_length; reflexivity|].
  apply Forall_forall. intros x Hx. apply in_map_iff in Hx as (i & <- & Hi). apply in_seq in Hi.
  assert (length (slice b (i * 8) 8) = 8%nat) as Ls by (unfold slice; rewrite firstn_length, skipn_length; lia).
  pose proof (le_val_lt (slice b (i * 8) 8) (bytes_slice _ _ _ Hb)) as X. rewrite Ls in X. exact X.
Qed.
Lemma comp_eq : forall st b, state_ok st -> bytes b -> length b = 64%nat ->
  tiger_comp st (le_words 8 b) = Tiger_block Tiger_boxes st b /\ state_ok (Tiger_block Tiger_boxes st b).
Proof.
  intros st b S Hb L. destruct (words_ok b Hb L) as [L1 W1]. set (x := le_words 8 b) in *.
  destruct (sched_ok x L1 W1) as [W2 L2]. destruct (sched_ok _ L2 W2) as [W3 L3].
  unfold tiger_comp. rewrite (sched_eq x L1 W1), (sched_eq _ L2 W2).
  destruct (pass_eq st 0 1 2 x 5 ltac:(left; reflexivity) S L1 W1) as [E1 S1].
  destruct (pass_eq _ 2 0 1 (key_schedule x) 7 ltac:(right; right; reflexivity) S1 L2 W2) as [E2 S2].
  destruct (pass_eq _ 1 2 0 (key_schedule (key_schedule x)) 9 ltac:(right; left; reflexivity) S2 L3 W3) as [E3 S3].
  revert E1 E2 E3 S3. generalize (tiger_pass (tiger_pass (tiger_pass st 0 1 2 x 5) 2 0 1 (key_schedule x) 7) 1 2 0 (key_schedule (key_schedule x)) 9).
  intros v E1 E2 E3 S3. rewrite E2, E1 in E3. clear E1 E2 S1 S2.
  destruct S as [Ls Fs]. destruct st as [|a [|b' [|c [|]]]]; try discriminate Ls.
  unfold Tiger_block. fold x. unfold Tiger_compress. change (three [a; b'; c] 0 1 2) with (a, b', c) in E3. rewrite <- E3. unfold three. cbn [nth].
  rewrite sub_minus. split; [reflexivity|]. split; [reflexivity|].
  destruct S3 as [L3' F3]. destruct v as [|p [|q [|r [|]]]]; try discriminate L3'. cbn [nth].
  inversion F3; subst. inversion Fs; subst.
  constructor; [apply lxor_lt; assumption|]. constructor; [apply minus_lt|]. constructor; [apply add_lt|]. constructor.
Qed.
Lemma out_eq : forall st, Forall w64 st -> store_be 8 (map tiger_rev64 st) = le_string 8 st.
Proof.
  intros st H. unfold store_be, le_string. rewrite map_map. f_equal. apply map_ext_in. intros x Hx. apply rev64_out.
  rewrite Forall_forall in H. apply H, Hx.
Qed.
Lemma mirrored_zero : forall X, slice X 48 8 = repeat 0 8 -> mirrored X.
Proof. intros X H. unfold mirrored. rewrite H. reflexivity. Qed.
Definition tiger_iv : list N := [0x0123456789ABCDEF; 0xFEDCBA9876543210; 0xF096A5B4C3B2E187].
Lemma iv_ok : state_ok tiger_iv.
Proof. split; [reflexivity|]. repeat (constructor; [reflexivity|]). constructor. Qed.
(* what the code returns, for every message whose last partial block is shorter than 48 bytes or has at least 56 *)
Lemma tiger_digest : forall hex m, octets m -> N.of_nat (length m) < 2 ^ 61 -> ~ (48 <= length m mod 64 < 56)%nat ->
  hash_processor tiger hex (Some m) (N.of_nat (length m)) =
  Done (ok (shown hex (le_string 8 (iterate 64 (Tiger_block Tiger_boxes) tiger_iv (code_padded 64 56 0x01 (le_bytes 8) m))))).
Proof.
  intros hex m Hm Hl Hn. pose proof (proj1 (octets_bytes m) Hm) as Hb. destruct (bits_size m Hl) as [_ B].
  pose proof (process_spec tiger (le_words 8) (le_bytes 8) mirrored (or_intror eq_refl) ltac:(cbn; lia) ltac:(cbn; lia) ltac:(reflexivity)
    (fun X H1 H2 => tiger_ord X H1 H2) (fun X t H1 H2 H3 H4 => tiger_fix_ok X t H1 H2 H3 H4) (fun t _ => le_bytes_length 8 t) m Hb B) as P.
  change (hp_nr tiger * hp_wb tiger)%nat with 64%nat in P. change (hp_off tiger) with 56%nat in P. change (hp_tok tiger) with 0x01 in P.
  assert (forall y : list N, bytes y -> y = skipn (length m / 64 * 64) m -> (length y < 56)%nat -> mirrored (y ++ [0x01] ++ repeat 0 (64 - 9 - length y))) as G1.
  { intros y _ Ey Ly. assert (length y < 48)%nat as L48.
    { subst y. rewrite skipn_length in *. pose proof (Nat.div_mod (length m) 64 ltac:(lia)). lia. }
    apply mirrored_zero. rewrite slice_app_r by lia. rewrite slice_app_r by (cbn [length]; lia). cbn [length].
    replace (repeat 0 (64 - 9 - length y)) with (repeat 0 (48 - length y - 1) ++ repeat 0 8) by (rewrite <- repeat_app; f_equal; lia).
    rewrite slice_app_r by (rewrite repeat_length; lia). rewrite repeat_length. replace (48 - length y - 1 - (48 - length y - 1))%nat with 0%nat by lia. reflexivity. }
  specialize (P G1 ltac:(apply mirrored_zero; reflexivity)). clear G1.
  rewrite (processor_spec tiger hex m _ Hl P). change (hp_wb tiger) with 8%nat. change (hp_out tiger) with (map tiger_rev64).
  change (hp_init tiger) with tiger_iv in *. change (hp_comp tiger) with tiger_comp in *. clear P.
  set (p := code_padded 64 56 0x01 (le_bytes 8) m).
  assert (iterate 64 (fun st b => tiger_comp st (le_words 8 b)) tiger_iv p = iterate 64 (Tiger_block Tiger_boxes) tiger_iv p /\
          state_ok (iterate 64 (Tiger_block Tiger_boxes) tiger_iv p)) as [E So].
  { apply (iterate_sim 64 (fun s t => s = t /\ state_ok t)).
    - lia.
    - apply code_padded_blocks; [lia|lia|apply le_bytes_length].
    - apply code_padded_bytes; [exact Hb|reflexivity|intro; apply le_bytes_bytes].
    - split; [reflexivity|apply iv_ok].
    - intros s t b [-> S] Lb Bb. apply comp_eq; assumption. }
  rewrite E. rewrite words_to_hex, out_eq by apply So. destruct hex; reflexivity.
Qed.
Lemma tiger_pad : forall m, m = [] \/ (length m mod 64 <> 0)%nat -> code_padded 64 56 0x01 (le_bytes 8) m = padded 64 8 0x01 (le_bytes 8) m.
Proof. intros m H. apply code_padded_standard; [lia|lia|reflexivity|exact H|]. change (64 - 8)%nat with 56%nat. reflexivity. Qed.
Lemma tiger_collision : forall m, octets m -> N.of_nat (length m) + 128 < 2 ^ 61 -> m = [] \/ (length m mod 64 <> 0)%nat -> ~ (48 <= length m mod 64 < 56)%nat ->
  let p := padded 64 8 0x01 (le_bytes 8) m in p <> m /\
  hash_processor tiger false (Some p) (N.of_nat (length p)) = hash_processor tiger false (Some m) (N.of_nat (length m)).
Proof.
  intros m Hm Hl R Hn p. pose proof (padded_len 64 8 0x01 (le_bytes 8) m ltac:(lia) (le_bytes_length 8)) as Lp. fold p in Lp.
  pose proof (padded_mod 64 8 0x01 (le_bytes 8) m ltac:(lia) ltac:(lia) (le_bytes_length 8)) as Mp. fold p in Mp.
  split; [intro E; rewrite E in Lp; lia|].
  rewrite (tiger_digest false p); [|apply octets_bytes, padded_bytes; [apply octets_bytes, Hm|reflexivity|apply le_bytes_bytes]|lia|rewrite Mp; lia].
  rewrite (tiger_digest false m Hm ltac:(lia) Hn). rewrite no_pad; [|intro E; rewrite E in Lp; cbn [length] in Lp; lia|exact Mp].
  rewrite tiger_pad by exact R. reflexivity.
Qed.
