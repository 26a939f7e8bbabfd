(* SHA-1 and SHA-2, and the digests of all hashes of this family. *)
From Verif Require Import Words EncSpec TaskModel CipherBase CipherLib RcProofs StreamModel StreamProofs HashModel HashSpec HashProofs HashProofs2 HashTables.
From Verif Require EncProofs.
From Coq Require Import PeanoNat.
Open Scope N_scope.

(* ---- the message schedule *)
Lemma upd_snoc : forall l k x, (0 < k)%nat -> upd (l ++ repeat 0 k) (length l) x = (l ++ [x]) ++ repeat 0 (k - 1).
Proof.
  intros l k x Hk. destruct k as [|k]; [lia|]. cbn [repeat]. rewrite Nat.sub_succ, Nat.sub_0_r.
  induction l as [|y l IH]; [reflexivity|]. cbn [length app upd]. f_equal. exact IH.
Qed.
Lemma extend_S : forall next n W, extend next (S n) W = extend next n W ++ [next (extend next n W)].
Proof. intros next n. induction n as [|n IH]; intro W; [reflexivity|]. cbn [extend] in *. apply IH. Qed.
Lemma extend_length : forall next n W, length (extend next n W) = (length W + n)%nat.
Proof. intros next n. induction n as [|n IH]; intro W; [cbn; lia|]. rewrite extend_S, app_length, IH. cbn [length]. lia. Qed.
Lemma schedule_eq : forall next spec n blk, length blk = 16%nat -> (16 <= n)%nat ->
  (forall W z, (16 <= length W)%nat -> next (W ++ z) (length W) = spec W) ->
  schedule next n blk = extend spec (n - 16) blk.
Proof.
  intros next spec n blk L Hn H. unfold schedule. rewrite firstn_all2 by lia.
  assert (forall k, (k <= n - 16)%nat -> fold_left (fun W t => upd W t (next W t)) (seq 16 k) (blk ++ repeat 0 (n - 16)) =
    extend spec k blk ++ repeat 0 (n - 16 - k)) as P.
  { induction k as [|k IH]; intro Hk; [cbn [seq fold_left extend]; rewrite Nat.sub_0_r; reflexivity|].
    rewrite seq_S, fold_left_app, IH by lia. cbn [fold_left].
    assert (length (extend spec k blk) = 16 + k)%nat as Le by (rewrite extend_length; lia). rewrite <- Le.
    rewrite H by lia. rewrite upd_snoc by lia. rewrite extend_S. f_equal. f_equal. lia. }
  rewrite P by lia. rewrite Nat.sub_diag. apply app_nil_r.
Qed.
Lemma back_eq : forall W z k, (0 < k <= length W)%nat -> nth (length W - k) (W ++ z) 0 = back W k.
Proof. intros W z k H. unfold back. apply app_nth1. lia. Qed.

(* ---- SHA-1 *)
Lemma sha1_next_eq : forall W z, (16 <= length W)%nat -> sha1_next (W ++ z) (length W) = ROTL 32 1 (back W 3 ^. back W 8 ^. back W 14 ^. back W 16).
Proof. intros W z H. unfold sha1_next. rewrite !back_eq by lia. apply rotl_ROTL. Qed.
Definition upto (P : nat -> Prop) (n : nat) : Prop := forall t, (t < n)%nat -> P t.
Lemma sha1_F_eq : forall t B C D, (t < 80)%nat -> sha1_F t B C D = SHA1_f t B C D.
Proof.
  intros t B C D H. unfold sha1_F, SHA1_f. rewrite notw_compl.
  destruct (Nat.leb_spec t 19).
  { rewrite (Nat.div_small t 20) by lia. reflexivity. }
  destruct (Nat.leb_spec t 39).
  { replace (t / 20)%nat with 1%nat by (apply (Nat.div_unique t 20 1 (t - 20)); lia).
    replace (Nat.leb 20 t) with true by (symmetry; apply Nat.leb_le; lia). reflexivity. }
  destruct (Nat.leb_spec 60 t).
  { replace (t / 20)%nat with 3%nat by (apply (Nat.div_unique t 20 3 (t - 60)); lia).
    replace (Nat.leb t 79) with true by (symmetry; apply Nat.leb_le; lia). rewrite Bool.orb_true_r. reflexivity. }
  replace (t / 20)%nat with 2%nat by (apply (Nat.div_unique t 20 2 (t - 40)); lia).
  rewrite Bool.andb_false_r. reflexivity.
Qed.
Lemma sha1_K_eq : forall t, (t < 80)%nat -> sha1_K t = SHA1_K t.
Proof.
  intros t H. unfold sha1_K, SHA1_K.
  destruct (Nat.leb_spec t 19).
  { rewrite (Nat.div_small t 20) by lia. vm_compute. reflexivity. }
  destruct (Nat.leb_spec t 39).
  { replace (t / 20)%nat with 1%nat by (apply (Nat.div_unique t 20 1 (t - 20)); lia). vm_compute. reflexivity. }
  destruct (Nat.leb_spec t 59).
  { replace (t / 20)%nat with 2%nat by (apply (Nat.div_unique t 20 2 (t - 40)); lia). vm_compute. reflexivity. }
  replace (t / 20)%nat with 3%nat by (apply (Nat.div_unique t 20 3 (t - 60)); lia). vm_compute. reflexivity.
Qed.
Definition list5 (q : quint) : list N := let '(a, b, c, d, e) := q in [a; b; c; d; e].
Lemma sha1_round_eq : forall W q t, (t < 80)%nat -> sha1_round W (list5 q) t = list5 (SHA1_step W q t).
Proof.
  intros W [[[[a b] c] d] e] t H. unfold sha1_round, SHA1_step, list5. cbn [nth].
  rewrite sha1_F_eq, sha1_K_eq by exact H. rewrite sum5, !rotl_ROTL. reflexivity.
Qed.
Lemma fold_sim : forall {A B C} (R : A -> B) (f : B -> C -> B) (g : A -> C -> A) l, (forall a c, In c l -> f (R a) c = R (g a c)) ->
  forall a, fold_left f l (R a) = R (fold_left g l a).
Proof.
  intros A B C R f g. induction l as [|x l IH]; intros H a; [reflexivity|]. cbn [fold_left].
  rewrite H by (left; reflexivity). apply IH. intros a' c Hc. apply H. right. exact Hc.
Qed.
Lemma be_words_length : forall wb n l, (0 < wb)%nat -> length l = (n * wb)%nat -> length (be_words wb l) = n.
Proof. intros wb n l Hw L. rewrite (be_words_load wb n) by assumption. apply load_be_length. Qed.
Lemma sha1_comp_eq : forall st block, length st = 5%nat -> length block = 64%nat ->
  sha1_comp st (be_words 4 block) = SHA1_block st block /\ length (SHA1_block st block) = 5%nat.
Proof.
  intros st block L Lb. unfold sha1_comp, SHA1_block, SHA1_W.
  rewrite (schedule_eq sha1_next _ 80 (be_words 4 block) (be_words_length 4 16 block ltac:(lia) Lb) ltac:(lia) sha1_next_eq).
  change (80 - 16)%nat with 64%nat. set (W := extend _ 64 _). clearbody W.
  destruct (five st L) as (a & b & c & d & e & ->). change [a; b; c; d; e] with (list5 (a, b, c, d, e)).
  rewrite (fold_sim list5 (sha1_round W) (SHA1_step W)).
  2:{ intros q t Ht. apply in_seq in Ht. apply sha1_round_eq. lia. }
  unfold quint. cbn [list5]. destruct (fold_left (SHA1_step W) (seq 0 80) (a, b, c, d, e)) as [[[[a' b'] c'] d'] e'].
  cbn [list5]. rewrite add_each. split; reflexivity.
Qed.

(* ---- SHA-2 *)
Definition list8 (q : oct) : list N := let '(a, b, c, d, e, f, g, h) := q in [a; b; c; d; e; f; g; h].
(* model parameters that describe the functions of the standard *)
Definition sha2_rel (m : sha2_params) (s : sha2) : Prop :=
  s2_w m = w s /\ s2_n m = rounds s /\ (16 <= rounds s)%nat /\ s2_K m = K s /\
  (forall x, bsig (s2_w m) (s2_S0 m) x = Sigma0 s x) /\ (forall x, bsig (s2_w m) (s2_S1 m) x = Sigma1 s x) /\
  (forall x, ssig (s2_w m) (s2_s0 m) x = sigma0 s x) /\ (forall x, ssig (s2_w m) (s2_s1 m) x = sigma1 s x).
Lemma rel256 : sha2_rel p256 SHA32.
Proof. unfold sha2_rel. split; [reflexivity|]. split; [reflexivity|]. split; [cbn; lia|]. split; [symmetry; apply sha256_K_eq|]. repeat split. Qed.
Lemma rel512 : sha2_rel p512 SHA64.
Proof. unfold sha2_rel. split; [reflexivity|]. split; [reflexivity|]. split; [cbn; lia|]. split; [symmetry; apply sha512_K_eq|]. repeat split. Qed.
Lemma sha2_comp_eq : forall m s wb st block, sha2_rel m s -> (0 < wb)%nat -> length st = 8%nat -> length block = (16 * wb)%nat ->
  sha2_comp m st (be_words wb block) = SHA2_block s wb st block /\ length (SHA2_block s wb st block) = 8%nat.
Proof.
  intros m s wb st block (Ew & En & Hn & EK & ES0 & ES1 & Es0 & Es1) Hwb L Lb. unfold sha2_comp, SHA2_block, SHA2_W.
  rewrite (schedule_eq (sha2_next m) (fun W => sum (w s) [sigma1 s (back W 2); back W 7; sigma0 s (back W 15); back W 16]) (s2_n m)
    (be_words wb block) (be_words_length wb 16 block Hwb Lb) ltac:(lia)).
  2:{ intros W z H. unfold sha2_next. rewrite !back_eq by lia. cbv zeta. rewrite sum4, Es0, Es1, Ew. reflexivity. }
  rewrite En. set (W := extend _ (rounds s - 16) _). clearbody W.
  destruct st as [|a [|b [|c [|d [|e [|f [|g [|h [|]]]]]]]]]; try discriminate L. clear L.
  change [a; b; c; d; e; f; g; h] with (list8 (a, b, c, d, e, f, g, h)).
  rewrite (fold_sim list8 (sha2_round m W) (SHA2_step s W)).
  2:{ intros q t Ht. destruct q as [[[[[[[a' b'] c'] d'] e'] f'] g'] h']. unfold sha2_round, SHA2_step, list8. cbn [nth]. cbv zeta.
      rewrite ES0, ES1, EK, Ew, !(sum5 (w s) h'), !sum2. unfold sha2_CH, Ch, sha2_MAJ, Maj, pick. rewrite notw_compl. reflexivity. }
  cbn [list8]. destruct (fold_left (SHA2_step s W) (seq 0 (rounds s)) (a, b, c, d, e, f, g, h)) as [[[[[[[a' b'] c'] d'] e'] f'] g'] h'].
  cbn [list8]. rewrite add_each, Ew. split; [|reflexivity]. unfold each_sum. cbn [combine map fst snd].
  repeat (f_equal; [apply sum_perm2|]). f_equal. apply sum_perm2.
Qed.

(* ---- which padding the code writes *)
Lemma code_padded_standard : forall bs off lb tok field fieldL m, (0 < bs)%nat -> (8 <= lb < bs)%nat ->
  (forall t, fieldL t = repeat 0 (lb - 8) ++ field t) ->
  m = [] \/ (length m mod bs <> 0)%nat ->
  (length m mod bs < off <-> length m mod bs < bs - lb)%nat ->
  code_padded bs off tok field m = padded bs lb tok fieldL m.
Proof.
  intros bs off lb tok field fieldL m Hbs Hlb Hf Hm Ho. unfold code_padded, padded.
  replace (negb (Nat.eqb (length m) 0) && Nat.eqb (length m mod bs) 0)%bool with false.
  2:{ symmetry. destruct Hm as [->|Hm]; [reflexivity|]. apply Bool.andb_false_iff. right. apply Nat.eqb_neq. exact Hm. }
  f_equal. f_equal. rewrite Hf, app_assoc, <- repeat_app. f_equal. f_equal.
  unfold code_zeros, zeros_needed. pose proof (Nat.mod_upper_bound (length m) bs ltac:(lia)) as B.
  assert (((length m + 1 + lb) mod bs = (length m mod bs + 1 + lb) mod bs)%nat) as ->.
  { rewrite <- !Nat.add_assoc. symmetry. apply Nat.add_mod_idemp_l. lia. }
  set (r := (length m mod bs)%nat) in *. clearbody r. clear Hm Hf.
  destruct (Nat.ltb_spec r off) as [O|O].
  - apply Ho in O. destruct (Nat.eq_dec (r + 1 + lb) bs) as [E|E].
    + rewrite E, Nat.mod_same, Nat.sub_0_r, Nat.mod_same by lia. lia.
    + rewrite (Nat.mod_small (r + 1 + lb)) by lia. rewrite Nat.mod_small by lia. lia.
  - assert (bs - lb <= r)%nat as O2 by (destruct (Nat.lt_ge_cases r (bs - lb)) as [X|X]; [apply Ho in X; lia|exact X]).
    replace (r + 1 + lb)%nat with ((r + 1 + lb - bs) + 1 * bs)%nat by lia. rewrite Nat.mod_add by lia.
    rewrite (Nat.mod_small (r + 1 + lb - bs)) by lia.
    rewrite Nat.mod_small by lia. lia.
Qed.
Lemma code_padded_blocks : forall bs off tok field m, (9 <= bs)%nat -> (off + 8 <= bs)%nat -> length (field (8 * N.of_nat (length m))) = 8%nat ->
  (length (code_padded bs off tok field m) mod bs = 0)%nat.
Proof.
  intros bs off tok field m Hbs Ho Hf. unfold code_padded.
  destruct (negb (Nat.eqb (length m) 0) && Nat.eqb (length m mod bs) 0)%bool eqn:E.
  - apply Bool.andb_true_iff in E. apply Nat.eqb_eq. apply E.
  - rewrite !app_length, repeat_length, Hf. cbn [length]. unfold code_zeros.
    pose proof (Nat.mod_upper_bound (length m) bs ltac:(lia)) as B. pose proof (Nat.div_mod (length m) bs ltac:(lia)) as D.
    destruct (Nat.ltb_spec (length m mod bs) off).
    + replace (length m + (1 + (bs - 9 - length m mod bs + 8)))%nat with ((length m / bs + 1) * bs)%nat by nia. apply Nat.mod_mul. lia.
    + replace (length m + (1 + (2 * bs - 9 - length m mod bs + 8)))%nat with ((length m / bs + 2) * bs)%nat by nia. apply Nat.mod_mul. lia.
Qed.
Lemma chunks_length : forall n l b, (0 < n)%nat -> (length l mod n = 0)%nat -> In b (chunks n l) -> length b = n.
Proof.
  intros n l b Hn M H. destruct (blocks_of n l Hn) as (bl & la & E & Hb & _ & Hla).
  rewrite M in Hla. destruct la; [|discriminate]. rewrite E in H. rewrite chunks_concat in H by assumption.
  rewrite app_nil_r in H. apply Hb, H.
Qed.
Lemma iterate_ext : forall bs k c1 c2 init p, (0 < bs)%nat -> (length p mod bs = 0)%nat -> length init = k ->
  (forall st b, length st = k -> length b = bs -> c1 st b = c2 st b /\ length (c2 st b) = k) ->
  iterate bs c1 init p = iterate bs c2 init p /\ length (iterate bs c2 init p) = k.
Proof.
  intros bs k c1 c2 init p Hb M L H. unfold iterate.
  assert (forall b, In b (chunks bs p) -> length b = bs) as F by (intros; eapply chunks_length; eassumption).
  revert init L. induction (chunks bs p) as [|b l IH]; intros init L; [auto|].
  cbn [fold_left]. destruct (H init b L (F b (or_introl eq_refl))) as [E1 E2]. rewrite E1. apply IH; [|exact E2].
  intros b' Hb'. apply F. right. exact Hb'.
Qed.

(* ---- the processor *)
Lemma bits_size : forall m : list N, N.of_nat (length m) < 2 ^ 61 -> shlw 64 (N.of_nat (length m)) 3 = 8 * N.of_nat (length m) /\ 8 * N.of_nat (length m) < 2 ^ 64.
Proof.
  intros m H. set (n := N.of_nat (length m)) in *. assert (8 * n < 2 ^ 64) as B.
  { change (2 ^ 64) with (8 * 2 ^ 61). apply N.mul_lt_mono_pos_l; [reflexivity|exact H]. }
  split; [|exact B]. unfold shlw. rewrite N.shiftl_mul_pow2. change (2 ^ 3) with 8. rewrite N.mul_comm. apply N.mod_small, B.
Qed.
Lemma buf_same : forall l, buf (Some l) (N.of_nat (length l)) = Done l.
Proof. intro l. unfold buf. rewrite N.ltb_irrefl, Nat2N.id, firstn_all. reflexivity. Qed.
Definition ok (out : list N) : hash_run := mkHashRun Success (Some out) (N.of_nat (length out)).
Lemma processor_spec : forall h hex m st, N.of_nat (length m) < 2 ^ 61 ->
  process_message h (8 * N.of_nat (length m)) m = Done st ->
  hash_processor h hex (Some m) (N.of_nat (length m)) =
  Done (ok (if hex then concat (map (word_to_hex (hp_wb h)) (hp_out h st)) else store_be (hp_wb h) (hp_out h st))).
Proof.
  intros h hex m st H P. unfold hash_processor. destruct (bits_size m H) as [E B]. rewrite E.
  assert (shr (8 * N.of_nat (length m)) 3 = N.of_nat (length m)) as ->.
  { rewrite N.shiftr_div_pow2. change (2 ^ 3) with 8. rewrite N.mul_comm. apply N.div_mul. discriminate. }
  rewrite buf_same. cbn [obind]. rewrite P. cbn [obind]. destruct hex; reflexivity.
Qed.

(* ---- hexadecimal output *)
Lemma hex_byte : forall b, b < 256 -> rfc_base16 [b] = [nibble2ascii (b / 16); nibble2ascii (b mod 16)].
Proof.
  assert (forall b, b < 256 -> eqb_list (rfc_base16 [b]) [nibble2ascii (b / 16); nibble2ascii (b mod 16)] = true) as P.
  { apply (sweep 256). vm_compute. reflexivity. }
  intros b H. apply eqb_list_eq, P, H.
Qed.
Lemma base16_app : forall a b, rfc_base16 (a ++ b) = rfc_base16 a ++ rfc_base16 b.
Proof.
  induction a as [|x a IH]; intro b; [reflexivity|]. cbn [app]. rewrite !EncProofs.base16_spec_cons, IH. reflexivity.
Qed.
Lemma base16_concat : forall l, rfc_base16 (concat l) = concat (map rfc_base16 l).
Proof. induction l as [|x l IH]; [reflexivity|]. cbn [concat map]. rewrite base16_app, IH. reflexivity. Qed.
Lemma word_to_hex_eq : forall k x, word_to_hex k x = rfc_base16 (be_bytes k x).
Proof.
  induction k as [|k IH]; intro x; [reflexivity|]. cbn [be_bytes]. rewrite base16_app, <- IH.
  rewrite hex_byte by (apply N.mod_lt; discriminate). unfold word_to_hex.
  replace (2 * S k)%nat with (2 * k + 2)%nat by lia. rewrite seq_app, map_app. f_equal.
  - apply map_ext_in. intros i Hi. apply in_seq in Hi. f_equal. f_equal.
    replace (4 * N.of_nat (2 * k + 2 - 1 - i)) with (8 + 4 * N.of_nat (2 * k - 1 - i)) by lia.
    rewrite <- N.shiftr_shiftr. rewrite (N.shiftr_div_pow2 x 8). reflexivity.
  - cbn [seq map]. replace (2 * k + 2 - 1 - (0 + 2 * k))%nat with 1%nat by lia. replace (2 * k + 2 - 1 - S (0 + 2 * k))%nat with 0%nat by lia.
    change 0xf with (N.ones 4). rewrite !N.land_ones, !N.shiftr_div_pow2. change (2 ^ (4 * N.of_nat 1)) with 16. change (2 ^ (4 * N.of_nat 0)) with 1. change (2 ^ 4) with 16.
    rewrite N.div_1_r. change 256 with (16 * 16). rewrite N.mod_mul_r by discriminate.
    assert (x mod 16 < 16) as B by (apply N.mod_lt; discriminate).
    assert ((x mod 16 + 16 * ((x / 16) mod 16)) / 16 = (x / 16) mod 16) as ->.
    { rewrite N.mul_comm, N.div_add by discriminate. rewrite N.div_small by exact B. reflexivity. }
    assert ((x mod 16 + 16 * ((x / 16) mod 16)) mod 16 = x mod 16) as ->.
    { rewrite N.mul_comm, N.mod_add by discriminate. apply N.mod_small, B. }
    reflexivity.
Qed.
Lemma words_to_hex : forall wb ws, concat (map (word_to_hex wb) ws) = rfc_base16 (store_be wb ws).
Proof.
  intros wb ws. unfold store_be. rewrite base16_concat, map_map. f_equal. apply map_ext. apply word_to_hex_eq.
Qed.

(* ---- the digests *)
(* the output in the requested form *)
Definition shown (hex : bool) (digest : list N) : list N := if hex then rfc_base16 digest else digest.
Section Digest.
  Variable h : hash_params.
  Variable k : nat.                                (* words in the state *)
  Variable words : list N -> list N.
  Variable field : N -> list N.
  Variable block : list N -> list N -> list N.
  Variable out : list N -> list N.
  Variable good : list N -> Prop.                  (* see process_spec *)
  Let bs := (hp_nr h * hp_wb h)%nat.
  Hypothesis Hwb : hp_wb h = 4%nat \/ hp_wb h = 8%nat.
  Hypothesis Hnr : (3 <= hp_nr h)%nat.
  Hypothesis Hoff : (hp_off h + 8 <= bs)%nat.
  Hypothesis Htok : hp_tok h < 256.
  Hypothesis Hord : forall B, bytes B -> length B = bs -> hp_ord h (load_be (hp_wb h) (hp_nr h) B) = words B.
  Hypothesis Hfix : forall X total, bytes X -> length X = (bs - 8)%nat -> total < 2 ^ 64 -> good X ->
    hp_ord h (hp_fix h (load_be (hp_wb h) (hp_nr h) (X ++ be_bytes 8 total))) = words (X ++ field total).
  Hypothesis Hfield : forall t, t < 2 ^ 64 -> length (field t) = 8%nat.
  Hypothesis Hinit : length (hp_init h) = k.
  Hypothesis Hcomp : forall st b, length st = k -> length b = bs -> hp_comp h st (words b) = block st b /\ length (block st b) = k.
  Hypothesis Hout : forall p, (length p mod bs = 0)%nat -> store_be (hp_wb h) (hp_out h (iterate bs block (hp_init h) p)) = out (iterate bs block (hp_init h) p).

  Lemma digest_spec : forall hex m, octets m -> N.of_nat (length m) < 2 ^ 61 ->
    (forall buf, bytes buf -> buf = skipn (length m / bs * bs) m -> (length buf < hp_off h)%nat -> good (buf ++ [hp_tok h] ++ repeat 0 (bs - 9 - length buf))) ->
    good (repeat 0 (bs - 8)) ->
    hash_processor h hex (Some m) (N.of_nat (length m)) =
    Done (ok (shown hex (out (iterate bs block (hp_init h) (code_padded bs (hp_off h) (hp_tok h) field m))))).
  Proof.
    intros hex m Hm Hl G1 G2. pose proof (proj1 (octets_bytes m) Hm) as Hb. destruct (bits_size m Hl) as [_ B].
    pose proof (process_spec h words field good Hwb ltac:(lia) Hoff Htok Hord Hfix Hfield m Hb B G1 G2) as P.
    fold bs in P.
    assert (length (code_padded bs (hp_off h) (hp_tok h) field m) mod bs = 0)%nat as M.
    { apply code_padded_blocks; [|exact Hoff|apply Hfield, B]. unfold bs. destruct Hwb as [->| ->]; nia. }
    destruct (iterate_ext bs k (fun st b => hp_comp h st (words b)) block (hp_init h) (code_padded bs (hp_off h) (hp_tok h) field m)) as [E _];
      [unfold bs; destruct Hwb as [->| ->]; lia|exact M|exact Hinit|exact Hcomp|].
    rewrite E in P. rewrite (processor_spec h hex m _ Hl P). unfold shown. destruct hex; [rewrite words_to_hex|]; rewrite Hout by exact M; reflexivity.
  Qed.
End Digest.

(* words below 2^w *)
Lemma each_sum_words : forall w a b, Forall (fun x => x < 2 ^ w) (each_sum w a b).
Proof. intros w a b. unfold each_sum. apply Forall_forall. intros x H. apply in_map_iff in H. destruct H as (p & <- & _). apply sum_lt. Qed.
Lemma iterate_words : forall bs w block init p, Forall (fun x => x < 2 ^ w) init ->
  (forall st b, Forall (fun x => x < 2 ^ w) st -> Forall (fun x => x < 2 ^ w) (block st b)) -> Forall (fun x => x < 2 ^ w) (iterate bs block init p).
Proof.
  intros bs w block init p Hi H. unfold iterate. revert init Hi. induction (chunks bs p) as [|b l IH]; intros init Hi; [exact Hi|].
  cbn [fold_left]. apply IH, H, Hi.
Qed.
Lemma le_out : forall st, Forall (fun x => x < 2 ^ 32) st -> store_be 4 (map rev_u32 st) = le_string 4 st.
Proof.
  intros st H. unfold store_be, le_string. rewrite map_map. f_equal. apply map_ext_in. intros x Hx. apply rev_u32_out.
  rewrite Forall_forall in H. apply H, Hx.
Qed.
Lemma le_digest : forall h k block, hp_wb h = 4%nat -> hp_nr h = 16%nat -> hp_off h = 56%nat -> hp_tok h = 0x80 -> hp_fix h = swap_len ->
  hp_ord h = map rev_u32 -> hp_out h = map rev_u32 -> length (hp_init h) = k -> Forall (fun x => x < 2 ^ 32) (hp_init h) ->
  (forall st b, length st = k -> hp_comp h st (le_words 4 b) = block st b /\ length (block st b) = k) ->
  (forall st b, Forall (fun x => x < 2 ^ 32) st -> Forall (fun x => x < 2 ^ 32) (block st b)) ->
  forall hex m, octets m -> N.of_nat (length m) < 2 ^ 61 ->
  hash_processor h hex (Some m) (N.of_nat (length m)) =
  Done (ok (shown hex (le_string 4 (iterate 64 block (hp_init h) (code_padded 64 56 0x80 (le_bytes 8) m))))).
Proof.
  intros h k block Hwb Hnr Hoff Htok Hfix Hord Hout Hinit Wi Hcomp Wc hex m Hm Hl.
  pose proof (digest_spec h k (le_words 4) (le_bytes 8) block (le_string 4) (fun _ => True)) as D.
  rewrite Hwb, Hnr, Hoff, Htok, Hord, Hfix, Hout in D. change (16 * 4)%nat with 64%nat in D.
  apply D; try assumption; try reflexivity; try lia; clear D.
  - exact le_ord.
  - intros X total Hb L Ht _. rewrite le_fix by assumption. apply le_ord.
    + apply bytes_app; [exact Hb|apply le_bytes_bytes].
    + rewrite app_length, le_bytes_length. change (64 - 8)%nat with 56%nat in L. lia.
  - intros st b L0 _. apply Hcomp, L0.
  - intros p _. apply le_out. apply iterate_words; assumption.
Qed.
Lemma be_digest : forall h wb k block f, wb = 4%nat \/ wb = 8%nat -> hp_wb h = wb -> hp_nr h = 16%nat -> hp_off h = (16 * wb - 8)%nat -> hp_tok h = 0x80 -> hp_fix h = same ->
  hp_ord h = same -> hp_out h = f -> length (hp_init h) = k ->
  (forall st b, length st = k -> length b = (16 * wb)%nat -> hp_comp h st (be_words wb b) = block st b /\ length (block st b) = k) ->
  forall hex m, octets m -> N.of_nat (length m) < 2 ^ 61 ->
  hash_processor h hex (Some m) (N.of_nat (length m)) =
  Done (ok (shown hex (be_string wb (f (iterate (16 * wb) block (hp_init h) (code_padded (16 * wb) (16 * wb - 8) 0x80 (be_bytes 8) m)))))).
Proof.
  intros h wb k block f Ww Hwb Hnr Hoff Htok Hfix Hord Hout Hinit Hcomp hex m Hm Hl.
  pose proof (digest_spec h k (be_words wb) (be_bytes 8) block (fun st => be_string wb (f st)) (fun _ => True)) as D.
  rewrite Hwb, Hnr, Hoff, Htok, Hord, Hfix, Hout in D.
  apply D; try assumption; try reflexivity; try lia; clear D.
  - intros B _ L. apply be_ord; [lia|exact L].
  - intros X total Hb L Ht _. apply be_ord; [lia|]. rewrite app_length, be_bytes_length. lia.
Qed.

Lemma md4_digest : forall hex m, octets m -> N.of_nat (length m) < 2 ^ 61 ->
  hash_processor md4 hex (Some m) (N.of_nat (length m)) =
  Done (ok (shown hex (le_string 4 (iterate 64 MD4_block MD_init (code_padded 64 56 0x80 (le_bytes 8) m))))).
Proof.
  apply (le_digest md4 4 MD4_block); try reflexivity.
  - repeat constructor.
  - apply md4_comp_eq.
  - intros. apply each_sum_words.
Qed.
Lemma md5_digest : forall hex m, octets m -> N.of_nat (length m) < 2 ^ 61 ->
  hash_processor md5 hex (Some m) (N.of_nat (length m)) =
  Done (ok (shown hex (le_string 4 (iterate 64 MD5_block MD_init (code_padded 64 56 0x80 (le_bytes 8) m))))).
Proof.
  apply (le_digest md5 4 MD5_block); try reflexivity.
  - repeat constructor.
  - apply md5_comp_eq.
  - intros. apply each_sum_words.
Qed.
Lemma rmd128_digest : forall hex m, octets m -> N.of_nat (length m) < 2 ^ 61 ->
  hash_processor ripemd128 hex (Some m) (N.of_nat (length m)) =
  Done (ok (shown hex (le_string 4 (iterate 64 RMD128_block MD_init (code_padded 64 56 0x80 (le_bytes 8) m))))).
Proof.
  apply (le_digest ripemd128 4 RMD128_block); try reflexivity.
  - repeat constructor.
  - apply rmd128_comp_eq.
  - intros st b H. unfold RMD128_block. destruct st as [|h0 [|h1 [|h2 [|h3 [|h4 st]]]]]; try exact H.
    destruct (fold_left _ _ _) as [[[A B] C] D]. destruct (fold_left _ _ _) as [[[A' B'] C'] D']. repeat constructor; apply sum_lt.
Qed.
Lemma rmd160_digest : forall hex m, octets m -> N.of_nat (length m) < 2 ^ 61 ->
  hash_processor ripemd160 hex (Some m) (N.of_nat (length m)) =
  Done (ok (shown hex (le_string 4 (iterate 64 RMD160_block SHA1_init (code_padded 64 56 0x80 (le_bytes 8) m))))).
Proof.
  apply (le_digest ripemd160 5 RMD160_block); try reflexivity.
  - repeat constructor.
  - apply rmd160_comp_eq.
  - intros st b H. unfold RMD160_block. destruct st as [|h0 [|h1 [|h2 [|h3 [|h4 [|h5 st]]]]]]; try exact H.
    destruct (fold_left _ _ _) as [[[[A B] C] D] E]. destruct (fold_left _ _ _) as [[[[A' B'] C'] D'] E']. repeat constructor; apply sum_lt.
Qed.
Lemma sha1_digest : forall hex m, octets m -> N.of_nat (length m) < 2 ^ 61 ->
  hash_processor sha1 hex (Some m) (N.of_nat (length m)) =
  Done (ok (shown hex (be_string 4 (iterate 64 SHA1_block SHA1_init (code_padded 64 56 0x80 (be_bytes 8) m))))).
Proof.
  apply (be_digest sha1 4 5 SHA1_block (fun x => x)); try reflexivity; [left; reflexivity|apply sha1_comp_eq].
Qed.
Lemma sha224_digest : forall hex m, octets m -> N.of_nat (length m) < 2 ^ 61 ->
  hash_processor sha224 hex (Some m) (N.of_nat (length m)) =
  Done (ok (shown hex (be_string 4 (firstn 7 (iterate 64 (SHA2_block SHA32 4) SHA224_init (code_padded 64 56 0x80 (be_bytes 8) m)))))).
Proof.
  rewrite sha224_init_eq.
  apply (be_digest sha224 4 8 (SHA2_block SHA32 4) (firstn 7)); try reflexivity; [left; reflexivity|].
  intros st b L Lb. apply (sha2_comp_eq p256 SHA32 4); [apply rel256|lia|exact L|exact Lb].
Qed.
Lemma sha256_digest : forall hex m, octets m -> N.of_nat (length m) < 2 ^ 61 ->
  hash_processor sha256 hex (Some m) (N.of_nat (length m)) =
  Done (ok (shown hex (be_string 4 (iterate 64 (SHA2_block SHA32 4) SHA256_init (code_padded 64 56 0x80 (be_bytes 8) m))))).
Proof.
  rewrite sha256_init_eq.
  apply (be_digest sha256 4 8 (SHA2_block SHA32 4) (fun x => x)); try reflexivity; [left; reflexivity|].
  intros st b L Lb. apply (sha2_comp_eq p256 SHA32 4); [apply rel256|lia|exact L|exact Lb].
Qed.
Lemma sha384_digest : forall hex m, octets m -> N.of_nat (length m) < 2 ^ 61 ->
  hash_processor sha384 hex (Some m) (N.of_nat (length m)) =
  Done (ok (shown hex (be_string 8 (firstn 6 (iterate 128 (SHA2_block SHA64 8) SHA384_init (code_padded 128 120 0x80 (be_bytes 8) m)))))).
Proof.
  rewrite sha384_init_eq.
  apply (be_digest sha384 8 8 (SHA2_block SHA64 8) (firstn 6)); try reflexivity; [right; reflexivity|].
  intros st b L Lb. apply (sha2_comp_eq p512 SHA64 8); [apply rel512|lia|exact L|exact Lb].
Qed.
Lemma sha512_digest : forall hex m, octets m -> N.of_nat (length m) < 2 ^ 61 ->
  hash_processor sha512 hex (Some m) (N.of_nat (length m)) =
  Done (ok (shown hex (be_string 8 (iterate 128 (SHA2_block SHA64 8) SHA512_init (code_padded 128 120 0x80 (be_bytes 8) m))))).
Proof.
  rewrite sha512_init_eq.
  apply (be_digest sha512 8 8 (SHA2_block SHA64 8) (fun x => x)); try reflexivity; [right; reflexivity|].
  intros st b L Lb. apply (sha2_comp_eq p512 SHA64 8); [apply rel512|lia|exact L|exact Lb].
Qed.

(* the paddings coincide *)
Lemma pad64 : forall field m, m = [] \/ (length m mod 64 <> 0)%nat -> code_padded 64 56 0x80 field m = padded 64 8 0x80 field m.
Proof. intros field m H. apply code_padded_standard; [lia|lia|reflexivity|exact H|]. change (64 - 8)%nat with 56%nat. reflexivity. Qed.
Lemma pad128 : forall m, m = [] \/ (length m mod 128 <> 0)%nat -> (length m mod 128 < 112 \/ 120 <= length m mod 128)%nat -> N.of_nat (length m) < 2 ^ 61 ->
  code_padded 128 120 0x80 (be_bytes 8) m = pad_be 128 16 m.
Proof.
  intros m H R Hl. destruct (bits_size m Hl) as [_ B]. unfold pad_be.
  rewrite (code_padded_standard 128 120 16 0x80 (be_bytes 8) (fun t => repeat 0 8 ++ be_bytes 8 t)); [|lia|lia|reflexivity|exact H|change (128 - 16)%nat with 112%nat; lia].
  unfold padded. f_equal. f_equal. f_equal. change (be_bytes 16 ?t) with (be_bytes (8 + 8) t). rewrite be_bytes_app. f_equal.
  rewrite N.div_small by exact B. reflexivity.
Qed.
Lemma no_pad : forall bs off tok field m, m <> [] -> (length m mod bs = 0)%nat -> code_padded bs off tok field m = m.
Proof.
  intros bs off tok field m H M. unfold code_padded. rewrite M. cbn [Nat.eqb].
  replace (Nat.eqb (length m) 0) with false; [reflexivity|]. symmetry. apply Nat.eqb_neq. intro E. apply H. destruct m; [reflexivity|discriminate].
Qed.
