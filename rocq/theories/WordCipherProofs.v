From Verif Require Import Words EncSpec TaskModel ModeModel ModeSpec CipherBase CipherLib KeyProofs TeaModel IdeaModel IdeaProofs.
From Verif Require Import WordCipherSpec.
Ltac Zify.zify_post_hook ::= Z.div_mod_to_equations.
Open Scope N_scope.

Lemma shl_mul : forall x n, shl32 x n = (x * 2 ^ n) mod M32.
Proof. intros. unfold shlw, M32. rewrite N.shiftl_mul_pow2. reflexivity. Qed.
Lemma sum_step : forall n, add32 ((N.of_nat n * delta) mod M32) tea_delta = (N.of_nat (S n) * delta) mod M32.
Proof.
  intro n. unfold addw, M32, tea_delta. fold delta. rewrite N.add_mod_idemp_l by discriminate. f_equal. lia.
Qed.

Lemma tea_round_is : forall k y z n,
  tea_enc_round (tea_key k) (y, z, (N.of_nat n * delta) mod M32) =
  (TEA_cycle (be_word 4 k) (y, z) (S n), (N.of_nat (S n) * delta) mod M32).
Proof.
  intros k y z n. unfold tea_enc_round, TEA_cycle. cbv zeta. cbn [fst snd]. rewrite sum_step.
  rewrite !shl_mul, !N.shiftr_div_pow2. reflexivity.
Qed.
Lemma tea_iter : forall k v n, Nat.iter n (tea_enc_round (tea_key k)) (v, 0) =
  (fold_left (TEA_cycle (be_word 4 k)) (seq 1 n) v, (N.of_nat n * delta) mod M32).
Proof.
  intros k v n. induction n as [|n IH]; [reflexivity|].
  change (Nat.iter (S n) (tea_enc_round (tea_key k)) (v, 0)) with (tea_enc_round (tea_key k) (Nat.iter n (tea_enc_round (tea_key k)) (v, 0))).
  rewrite IH, seq_S, fold_left_app. cbn [fold_left Nat.add].
  destruct (fold_left (TEA_cycle (be_word 4 k)) (seq 1 n) v) as [y z]. apply tea_round_is.
Qed.
Lemma tea_is : forall key block, bc_enc tea key block = WordCipherSpec.TEA key block.
Proof.
  intros key block. cbn [bc_enc tea]. unfold tea_encrypt, blk_be.
  change (load_be 4 2 block) with [be_word 4 block 0; be_word 4 block 1]. unfold on2. rewrite tea_iter. unfold WordCipherSpec.TEA. cbv zeta.
  destruct (fold_left (TEA_cycle (be_word 4 key)) (seq 1 32) (be_word 4 block 0, be_word 4 block 1)) as [y z].
  cbn [fst snd]. unfold store_be. cbn [map concat]. rewrite app_nil_r. reflexivity.
Qed.

Lemma key_nth : forall key j, j < 4 -> nthN (tea_key key) j = be_word 4 key (N.to_nat j).
Proof.
  intros key j Hj. unfold nthN. assert (N.to_nat j < 4)%nat as H by lia. generalize dependent (N.to_nat j). intros i Hi.
  do 4 (destruct i as [|i]; [reflexivity|]). lia.
Qed.
Lemma and3 : forall x, and x 3 = x mod 4.
Proof. intro x. change 3 with (N.ones 2). rewrite N.land_ones. reflexivity. Qed.
Lemma xtea_round_is : forall k y z n,
  xtea_enc_round (tea_key k) (y, z, (N.of_nat n * delta) mod M32) =
  (XTEA_cycle (be_word 4 k) (y, z) (S n), (N.of_nat (S n) * delta) mod M32).
Proof.
  intros k y z n. unfold xtea_enc_round, XTEA_cycle. cbv zeta. cbn [fst snd]. rewrite sum_step.
  rewrite !shl_mul, !and3, !N.shiftr_div_pow2, !key_nth by (apply N.mod_lt; discriminate).
  replace (S n - 1)%nat with n by lia. reflexivity.
Qed.
Lemma xtea_iter : forall k v n, Nat.iter n (xtea_enc_round (tea_key k)) (v, 0) =
  (fold_left (XTEA_cycle (be_word 4 k)) (seq 1 n) v, (N.of_nat n * delta) mod M32).
Proof.
  intros k v n. induction n as [|n IH]; [reflexivity|].
  change (Nat.iter (S n) (xtea_enc_round (tea_key k)) (v, 0)) with (xtea_enc_round (tea_key k) (Nat.iter n (xtea_enc_round (tea_key k)) (v, 0))).
  rewrite IH, seq_S, fold_left_app. cbn [fold_left Nat.add].
  destruct (fold_left (XTEA_cycle (be_word 4 k)) (seq 1 n) v) as [y z]. apply xtea_round_is.
Qed.
Lemma xtea_is : forall r key block, bc_enc (xtea (Some r)) key block = WordCipherSpec.XTEA (Z.to_nat r) key block.
Proof.
  intros r key block. cbn [bc_enc xtea]. unfold xtea_encrypt, blk_be.
  change (load_be 4 2 block) with [be_word 4 block 0; be_word 4 block 1]. unfold on2. rewrite xtea_iter. unfold WordCipherSpec.XTEA. cbv zeta.
  destruct (fold_left (XTEA_cycle (be_word 4 key)) (seq 1 (Z.to_nat r)) (be_word 4 block 0, be_word 4 block 1)) as [y z].
  cbn [fst snd]. unfold store_be. cbn [map concat]. rewrite app_nil_r. reflexivity.
Qed.

(* IDEA *)
Lemma omul_is : forall x y, x < 2 ^ 16 -> y < 2 ^ 16 -> idea_mul x y = omul x y.
Proof. intros x y Hx Hy. rewrite idea_mul_val by assumption. reflexivity. Qed.
Lemma omul_comm : forall x y, omul x y = omul y x.
Proof. intros. unfold omul. cbv zeta. rewrite N.mul_comm. reflexivity. Qed.
Lemma oadd_comm : forall x y, oadd x y = oadd y x.
Proof. intros. unfold oadd. rewrite N.add_comm. reflexivity. Qed.
Lemma omul_lt : forall x y, omul x y < 2 ^ 16.
Proof. intros. apply N.mod_lt. discriminate. Qed.
Lemma oadd_lt : forall x y, oadd x y < 2 ^ 16.
Proof. intros. apply N.mod_lt. discriminate. Qed.
Lemma idea_round_is : forall K z s r, w4 16 s -> (forall j, (j < 6)%nat -> nth (r + j) K 0 = z j /\ z j < 2 ^ 16) ->
  idea_enc_round K s r = IDEA_round z s /\ w4 16 (IDEA_round z s).
Proof.
  intros K z [[[x1 x2] x3] x4] r ((H1 & H2) & (H3 & H4)) Hz.
  unfold idea_enc_round, idea_ma, IDEA_round. cbv zeta.
  destruct (Hz 0%nat ltac:(lia)) as [E0 Z0]. destruct (Hz 1%nat ltac:(lia)) as [E1 Z1]. destruct (Hz 2%nat ltac:(lia)) as [E2 Z2].
  destruct (Hz 3%nat ltac:(lia)) as [E3 Z3]. destruct (Hz 4%nat ltac:(lia)) as [E4 Z4]. destruct (Hz 5%nat ltac:(lia)) as [E5 Z5].
  rewrite Nat.add_0_r in E0. rewrite E0, E1, E2, E3, E4, E5.
  change (add16 x3 (z 2%nat)) with (oadd x3 (z 2%nat)). change (add16 x2 (z 1%nat)) with (oadd x2 (z 1%nat)).
  rewrite (omul_is x1) by assumption. rewrite (omul_is x4) by assumption.
  set (a := omul x1 (z 0%nat)). set (b := oadd x2 (z 1%nat)). set (c := oadd x3 (z 2%nat)). set (d := omul x4 (z 3%nat)).
  assert (a < 2 ^ 16) as Ha by apply omul_lt. assert (b < 2 ^ 16) as Hb by apply oadd_lt. assert (c < 2 ^ 16) as Hc by apply oadd_lt. assert (d < 2 ^ 16) as Hd by apply omul_lt.
  clearbody a b c d.
  rewrite (omul_is (z 4%nat)) by (assumption || apply lxor_lt; assumption). rewrite (omul_comm (z 4%nat)).
  set (e := omul (N.lxor a c) (z 4%nat)). change (add16 e (N.lxor b d)) with (oadd e (N.lxor b d)). rewrite (oadd_comm e (N.lxor b d)).
  rewrite omul_is by (assumption || apply oadd_lt).
  set (f := omul (oadd (N.lxor b d) e) (z 5%nat)). change (add16 e f) with (oadd e f).
  split; [reflexivity|]. repeat split; apply lxor_lt; (assumption || apply omul_lt || apply oadd_lt).
Qed.

Definition tval (x : N * N * N * N) : N := let '(a, b, c, d) := x in a * 2 ^ 96 + b * 2 ^ 64 + c * 2 ^ 32 + d.
Lemma or_top : forall a b, b < 2 ^ 32 -> or (shl32 a 1) (shr b 31) = (2 * a) mod 2 ^ 32 + b / 2 ^ 31.
Proof.
  intros a b Hb. unfold shlw. rewrite N.shiftl_mul_pow2, N.shiftr_div_pow2. change (2 ^ 1) with 2.
  assert ((a * 2) mod 2 ^ 32 = (a mod 2 ^ 31) * 2 ^ 1) as ->.
  { change (2 ^ 32) with 4294967296. change (2 ^ 31) with 2147483648. change (2 ^ 1) with 2. lia. }
  rewrite <- N.shiftl_mul_pow2, lor_add.
  - change (2 ^ 32) with 4294967296. change (2 ^ 31) with 2147483648. change (2 ^ 1) with 2. lia.
  - change (2 ^ 32) with 4294967296 in *. change (2 ^ 31) with 2147483648. change (2 ^ 1) with 2. lia.
Qed.

Lemma roll_is : forall x, w4 32 x -> tval (idea_roll1 x) = turn (tval x).
Proof.
  intros [[[a b] c] d] ((Ha & Hb) & (Hc & Hd)). unfold idea_roll1. rewrite !or_top by assumption. unfold tval, turn.
  change (2 ^ 32) with 4294967296 in *. change (2 ^ 31) with 2147483648 in *. change (2 ^ 96) with 79228162514264337593543950336.
  change (2 ^ 64) with 18446744073709551616. change (2 ^ 128) with 340282366920938463463374607431768211456. change (2 ^ 127) with 170141183460469231731687303715884105728.
  pose proof (N.div_mod a 2147483648 ltac:(discriminate)) as Da. pose proof (N.mod_lt a 2147483648 ltac:(discriminate)) as Ma.
  pose proof (N.div_mod b 2147483648 ltac:(discriminate)) as Db. pose proof (N.mod_lt b 2147483648 ltac:(discriminate)) as Mb.
  pose proof (N.div_mod c 2147483648 ltac:(discriminate)) as Dc. pose proof (N.mod_lt c 2147483648 ltac:(discriminate)) as Mc.
  pose proof (N.div_mod d 2147483648 ltac:(discriminate)) as Dd. pose proof (N.mod_lt d 2147483648 ltac:(discriminate)) as Md.
  assert (forall t, t < 4294967296 -> (2 * t) mod 4294967296 = 2 * (t mod 2147483648)) as E by (intros; lia).
  rewrite !E by assumption. clear E.
  set (ah := a / 2147483648) in *. set (al := a mod 2147483648) in *. set (bh := b / 2147483648) in *. set (bl := b mod 2147483648) in *.
  set (ch := c / 2147483648) in *. set (cl := c mod 2147483648) in *. set (dh := d / 2147483648) in *. set (dl := d mod 2147483648) in *.
  clearbody ah al bh bl ch cl dh dl. subst a b c d.
  set (V := _ + _ + _ + (2147483648 * dh + dl)).
  assert (V / 170141183460469231731687303715884105728 = ah) as ->.
  { symmetry. apply (N.div_unique _ _ _ (al * 79228162514264337593543950336 + (2147483648 * bh + bl) * 18446744073709551616 + (2147483648 * ch + cl) * 4294967296 + (2147483648 * dh + dl))); unfold V; lia. }
  assert ((2 * V) mod 340282366920938463463374607431768211456 = 2 * (al * 79228162514264337593543950336 + (2147483648 * bh + bl) * 18446744073709551616 + (2147483648 * ch + cl) * 4294967296 + (2147483648 * dh + dl))) as ->.
  { symmetry. apply (N.mod_unique _ _ ah); unfold V; lia. }
  lia.
Qed.
Lemma rolls_is : forall n x, w4 32 x -> tval (Nat.iter n idea_roll1 x) = Nat.iter n turn (tval x).
Proof.
  induction n as [|n IH]; intros x Hx; [reflexivity|].
  change (Nat.iter (S n) idea_roll1 x) with (idea_roll1 (Nat.iter n idea_roll1 x)). change (Nat.iter (S n) turn (tval x)) with (turn (Nat.iter n turn (tval x))).
  rewrite roll_is by (apply idea_roll_wf, Hx). rewrite IH by exact Hx. reflexivity.
Qed.
Lemma half_hi : forall q x r, x < 2 ^ 32 -> r < 2 ^ q -> forall h, ((h * 2 ^ 32 + x) * 2 ^ q + r) / 2 ^ (q + 16) mod 2 ^ 16 = shr x 16.
Proof.
  intros q x r Hx Hr h. rewrite N.pow_add_r, <- N.div_div by (apply N.pow_nonzero; discriminate).
  rewrite N.div_add_l by (apply N.pow_nonzero; discriminate). rewrite (N.div_small r) by exact Hr. rewrite N.add_0_r, N.shiftr_div_pow2.
  change (2 ^ 32) with 4294967296 in *. change (2 ^ 16) with 65536. lia.
Qed.
Lemma half_lo : forall q x r, r < 2 ^ q -> forall h, ((h * 2 ^ 32 + x) * 2 ^ q + r) / 2 ^ q mod 2 ^ 16 = and x 0xffff.
Proof.
  intros q x r Hr h. rewrite N.div_add_l by (apply N.pow_nonzero; discriminate). rewrite (N.div_small r) by exact Hr.
  change 0xffff with (N.ones 16). rewrite N.land_ones. change (2 ^ 32) with 4294967296. change (2 ^ 16) with 65536. lia.
Qed.
Lemma halves_is : forall x i, w4 32 x -> (i < 8)%nat -> nth i (idea_halves x) 0 = (tval x / 2 ^ (16 * (7 - N.of_nat i))) mod 2 ^ 16.
Proof.
  intros [[[a b] c] d] i ((Ha & Hb) & (Hc & Hd)) Hi. unfold idea_halves, tval.
  assert (a * 2 ^ 96 + b * 2 ^ 64 + c * 2 ^ 32 + d = (0 * 2 ^ 32 + a) * 2 ^ 96 + (b * 2 ^ 64 + c * 2 ^ 32 + d)) as E1 by lia.
  assert (a * 2 ^ 96 + b * 2 ^ 64 + c * 2 ^ 32 + d = (a * 2 ^ 32 + b) * 2 ^ 64 + (c * 2 ^ 32 + d)) as E2 by (change (2 ^ 96) with (2 ^ 32 * 2 ^ 64); lia).
  assert (a * 2 ^ 96 + b * 2 ^ 64 + c * 2 ^ 32 + d = ((a * 2 ^ 32 + b) * 2 ^ 32 + c) * 2 ^ 32 + d) as E3 by (change (2 ^ 96) with (2 ^ 32 * 2 ^ 32 * 2 ^ 32); change (2 ^ 64) with (2 ^ 32 * 2 ^ 32); lia).
  assert (a * 2 ^ 96 + b * 2 ^ 64 + c * 2 ^ 32 + d = ((a * 2 ^ 64 + b * 2 ^ 32 + c) * 2 ^ 32 + d) * 2 ^ 0 + 0) as E4 by (change (2 ^ 96) with (2 ^ 32 * 2 ^ 64); change (2 ^ 64) with (2 ^ 32 * 2 ^ 32); change (2 ^ 0) with 1; lia).
  assert (b * 2 ^ 64 + c * 2 ^ 32 + d < 2 ^ 96) as R1 by (change (2 ^ 96) with (2 ^ 32 * 2 ^ 64); change (2 ^ 64) with (2 ^ 32 * 2 ^ 32); change (2 ^ 32) with 4294967296 in *; lia).
  assert (c * 2 ^ 32 + d < 2 ^ 64) as R2 by (change (2 ^ 64) with (2 ^ 32 * 2 ^ 32); change (2 ^ 32) with 4294967296 in *; lia).
  destruct i as [|[|[|[|[|[|[|[|i]]]]]]]]; [| | | | | | | |lia]; cbn [nth]; symmetry.
  - rewrite E1. exact (half_hi 96 a _ Ha R1 0).
  - rewrite E1. exact (half_lo 96 a _ R1 0).
  - rewrite E2. exact (half_hi 64 b _ Hb R2 a).
  - rewrite E2. exact (half_lo 64 b _ R2 a).
  - rewrite E3. exact (half_hi 32 c d Hc Hd _).
  - rewrite E3. exact (half_lo 32 c d Hd _).
  - rewrite E4. exact (half_hi 0 d 0 Hd eq_refl _).
  - rewrite E4. exact (half_lo 0 d 0 eq_refl _).
Qed.
Lemma subkey_turn : forall K i, subkey (Nat.iter 25 turn K) i = subkey K (8 + i).
Proof.
  intros K i. unfold subkey. replace ((8 + i) / 8)%nat with (S (i / 8)) by lia. replace ((8 + i) mod 8)%nat with (i mod 8)%nat by lia.
  replace (25 * S (i / 8))%nat with (25 * (i / 8) + 25)%nat by lia.
  assert (forall n m x, Nat.iter n turn (Nat.iter m turn x) = Nat.iter (n + m) turn x) as E.
  { intros n m x. induction n as [|n IH]; [reflexivity|]. change (Nat.iter (S n) turn (Nat.iter m turn x)) with (turn (Nat.iter n turn (Nat.iter m turn x))). rewrite IH. reflexivity. }
  rewrite E. reflexivity.
Qed.
Lemma expand_nth : forall n x i, w4 32 x -> (i < 8 * n + 4)%nat -> nth i (idea_expand n x) 0 = subkey (tval x) i.
Proof.
  induction n as [|n IH]; intros x i Hx Hi; cbn [idea_expand].
  - assert (nth i (firstn 4 (idea_halves x)) 0 = nth i (idea_halves x) 0) as ->.
    { destruct x as [[[a b] c] d]. cbn [idea_halves firstn]. do 4 (destruct i as [|i]; [reflexivity|]). lia. }
    rewrite halves_is by (assumption || lia). unfold subkey. rewrite (Nat.div_small i), (Nat.mod_small i) by lia. reflexivity.
  - assert (length (idea_halves x) = 8%nat) as L by (destruct x as [[[a b] c] d]; reflexivity).
    destruct (Nat.lt_ge_cases i 8) as [H8|H8].
    + rewrite app_nth1 by lia. rewrite halves_is by (assumption || lia). unfold subkey. rewrite (Nat.div_small i), (Nat.mod_small i) by lia. reflexivity.
    + rewrite app_nth2 by lia. rewrite L, IH by (apply idea_roll_wf, Hx || lia).
      rewrite rolls_is by exact Hx. rewrite subkey_turn. f_equal. lia.
Qed.
Lemma subkey_lt : forall K i, subkey K i < 2 ^ 16.
Proof. intros. apply N.mod_lt. discriminate. Qed.

Lemma idea_key_is : forall key i, length key = 16%nat -> bytes key -> (i < 52)%nat -> nth i (idea_key_expander key) 0 = subkey (be_val key) i.
Proof.
  intros key i L Hb Hi. unfold idea_key_expander. cbv zeta.
  assert (key <> []) as Hne by (intros ->; discriminate L).
  rewrite (ld_user_key_words 4 4 16 4 0 key) by (assumption || lia). cbn [Nat.eqb Nat.sub repeat]. rewrite app_nil_r.
  unfold load_be. cbn [seq map nth].
  do 16 (destruct key as [|? key]; [discriminate L|]). destruct key; [|discriminate L]. unfold bytes in Hb.
  repeat match goal with H : Forall _ (_ :: _) |- _ => inversion H; clear H; subst end.
  unfold slice. cbn [Nat.mul Nat.add skipn firstn].
  rewrite expand_nth; [f_equal; unfold tval, be_val; cbn [fold_left]; change (2 ^ 96) with 79228162514264337593543950336; change (2 ^ 64) with 18446744073709551616; change (2 ^ 32) with 4294967296; lia| |lia].
  unfold byte in *. unfold w4, be_val. cbn [fold_left]. change (2 ^ 32) with 4294967296. repeat split; lia.
Qed.

Lemma idea_fold : forall key x, length key = 16%nat -> bytes key -> w4 16 x -> forall n, (n <= 8)%nat ->
  fold_left (idea_enc_round (idea_key_expander key)) (map (fun i => 6 * i)%nat (seq 0 n)) x =
  fold_left (fun x r => IDEA_round (fun j => subkey (be_val key) (6 * r + j)%nat) x) (seq 0 n) x /\
  w4 16 (fold_left (fun x r => IDEA_round (fun j => subkey (be_val key) (6 * r + j)%nat) x) (seq 0 n) x).
Proof.
  intros key x L Hb Hx. induction n as [|n IH]; intro Hn; [split; [reflexivity|exact Hx]|]. destruct (IH ltac:(lia)) as [I1 I2].
  rewrite seq_S, map_app, !fold_left_app, I1. cbn [fold_left map Nat.add].
  apply idea_round_is; [exact I2|]. intros j Hj. split; [|apply subkey_lt]. apply idea_key_is; (assumption || lia).
Qed.
Lemma idea_is : forall key block, length key = 16%nat -> bytes key -> length block = 8%nat -> bytes block ->
  bc_enc idea key block = WordCipherSpec.IDEA key block.
Proof.
  intros key block L Hb Lb Bb. cbn [bc_enc idea]. unfold blk_be, WordCipherSpec.IDEA. cbv zeta.
  change (load_be 2 4 block) with [be_word 2 block 0; be_word 2 block 1; be_word 2 block 2; be_word 2 block 3].
  assert (forall i, be_word 2 block i < 2 ^ 16) as W.
  { intro i. unfold be_word. eapply N.lt_le_trans; [apply be_val_lt, bytes_firstn, bytes_skipn, Bb|].
    change (2 ^ 16) with (256 ^ 2). apply N.pow_le_mono_r; [discriminate|]. rewrite firstn_length. lia. }
  unfold on4, idea_encrypt_words.
  destruct (idea_fold key (be_word 2 block 0, be_word 2 block 1, be_word 2 block 2, be_word 2 block 3) L Hb ltac:(repeat split; apply W) 8 ltac:(lia)) as [E F].
  fold idea_rounds in E. rewrite E.
  destruct (fold_left _ (seq 0 8) _) as [[[x1 x2] x3] x4]. destruct F as ((F1 & F2) & (F3 & F4)).
  rewrite !idea_key_is by (assumption || lia). rewrite !omul_is by (assumption || apply subkey_lt).
  unfold store_be. cbn [map concat]. rewrite app_nil_r. reflexivity.
Qed.
