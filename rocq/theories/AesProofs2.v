From Verif Require Import Words EncSpec TaskModel ModeModel ModeSpec CipherBase CipherLib AesModel AesProofs KeyProofs StreamProofs.
From Verif Require BcryptProofs.
From Verif Require Import AesSpec.
Open Scope N_scope.

Lemma sbox_is : forallb (fun x => nthN aes_sbox x =? sbox x) all_bytes = true.
Proof. vm_compute. reflexivity. Qed.
Lemma sbox_spec : forall x, x < 256 -> nthN aes_sbox x = sbox x.
Proof. intros x H. apply N.eqb_eq. exact (sweep_bytes _ sbox_is x H). Qed.
Lemma ginv_is : forallb (fun x => (x =? 0) || (gmul x (ginv x) =? 1))%bool all_bytes = true.
Proof. vm_compute. reflexivity. Qed.
Lemma ginv_inverse : forall x, 0 < x < 256 -> gmul x (ginv x) = 1.
Proof.
  intros x [H0 H]. pose proof (sweep_bytes _ ginv_is x H) as E. cbv beta in E. apply Bool.orb_true_iff in E.
  destruct E as [E|E]; apply N.eqb_eq in E; [lia|exact E].
Qed.
Lemma gmul_is : forallb (fun x => (gmul x 2 =? xt x) && (gmul x 3 =? xor (xt x) x))%bool all_bytes = true.
Proof. vm_compute. reflexivity. Qed.
Lemma gmul23 : forall x, x < 256 -> gmul x 2 = xt x /\ gmul x 3 = xor (xt x) x.
Proof.
  intros x H. pose proof (sweep_bytes _ gmul_is x H) as E. cbv beta in E. apply Bool.andb_true_iff in E.
  destruct E as [E1 E2]. split; apply N.eqb_eq; assumption.
Qed.

Ltac list16 s Hl := destruct s as [|c0 [|c1 [|c2 [|c3 [|c4 [|c5 [|c6 [|c7 [|c8 [|c9 [|c10 [|c11 [|c12 [|c13 [|c14 [|c15 [|? ?]]]]]]]]]]]]]]]]]; try discriminate Hl.

Lemma state16 : forall f, state f = [f 0 0; f 1 0; f 2 0; f 3 0; f 0 1; f 1 1; f 2 1; f 3 1; f 0 2; f 1 2; f 2 2; f 3 2; f 0 3; f 1 3; f 2 3; f 3 3]%nat.
Proof. reflexivity. Qed.

Lemma SubBytes_is : forall s, length s = 16%nat -> bytes s -> aes_subbytes aes_sbox s = SubBytes s.
Proof.
  intros s Hl Hb. assert (aes_subbytes aes_sbox s = map sbox s) as ->.
  { apply map_ext_in. intros x Hx. apply sbox_spec. unfold bytes in Hb. rewrite Forall_forall in Hb. exact (Hb x Hx). }
  unfold SubBytes. generalize sbox. intro g. list16 s Hl. reflexivity.
Qed.
Lemma ShiftRows_is : forall s, length s = 16%nat -> aes_shift_rows s = ShiftRows s.
Proof. intros s Hl. list16 s Hl. reflexivity. Qed.

Lemma mix_is : forall a b c d, a < 256 -> b < 256 -> c < 256 -> d < 256 ->
  aes_mix_col [a; b; c; d] =
  [N.lxor (N.lxor (N.lxor (gmul a 2) (gmul b 3)) c) d; N.lxor (N.lxor (N.lxor (gmul b 2) (gmul c 3)) d) a;
   N.lxor (N.lxor (N.lxor (gmul c 2) (gmul d 3)) a) b; N.lxor (N.lxor (N.lxor (gmul d 2) (gmul a 3)) b) c].
Proof.
  intros a b c d Ha Hb Hc Hd. rewrite mix_col_val by assumption.
  destruct (gmul23 a Ha) as [-> ->]. destruct (gmul23 b Hb) as [-> ->]. destruct (gmul23 c Hc) as [-> ->]. destruct (gmul23 d Hd) as [-> ->].
  f_equal. f_equal; [xor_ring|]. f_equal; [xor_ring|]. f_equal. xor_ring.
Qed.
Lemma MixColumns_is : forall s, length s = 16%nat -> bytes s -> aes_columns aes_mix_col s = MixColumns s.
Proof.
  intros s Hl Hb. unfold bytes in Hb. list16 s Hl. Forall_inv. unfold aes_columns.
  change (slice [c0; c1; c2; c3; c4; c5; c6; c7; c8; c9; c10; c11; c12; c13; c14; c15] 0 4) with [c0; c1; c2; c3].
  change (slice [c0; c1; c2; c3; c4; c5; c6; c7; c8; c9; c10; c11; c12; c13; c14; c15] 4 4) with [c4; c5; c6; c7].
  change (slice [c0; c1; c2; c3; c4; c5; c6; c7; c8; c9; c10; c11; c12; c13; c14; c15] 8 4) with [c8; c9; c10; c11].
  change (slice [c0; c1; c2; c3; c4; c5; c6; c7; c8; c9; c10; c11; c12; c13; c14; c15] 12 4) with [c12; c13; c14; c15].
  rewrite !mix_is by assumption. unfold MixColumns. rewrite state16. generalize (fun x => gmul x 2) (fun x => gmul x 3). reflexivity.
Qed.

(* the expanded key *)
Definition B (W : list N) : list (list N) := map (be_bytes 4) W.
Lemma B_nth : forall W i, (i < length W)%nat -> nth i (B W) [] = be_bytes 4 (nth i W 0).
Proof.
  intros W i H. unfold B. rewrite (nth_indep _ [] (be_bytes 4 0)) by (rewrite map_length; exact H). apply map_nth.
Qed.
Lemma AddRoundKey_is : forall nr W r s, length W = (4 * (nr + 1))%nat -> (r <= nr)%nat -> length s = 16%nat ->
  xorl s (nth r (aes_round_keys nr W) []) = AddRoundKey (B W) r s.
Proof.
  intros nr W r s HW Hr Hl. unfold aes_round_keys.
  rewrite (nth_indep _ [] (store_be 4 (slice W (4 * nr) 4))) by (rewrite map_length, seq_length; lia).
  rewrite (map_nth (fun r => store_be 4 (slice W (4 * r) 4))), seq_nth by lia. cbn [Nat.add].
  unfold AddRoundKey. rewrite state16.
  rewrite slice4 by lia. rewrite !B_nth by lia. rewrite Nat.add_0_r.
  generalize (nth (4 * r) W 0) (nth (4 * r + 1) W 0) (nth (4 * r + 2) W 0) (nth (4 * r + 3) W 0). intros w0 w1 w2 w3.
  unfold store_be. cbn [map concat nth]. list16 s Hl.
  pose proof (be_bytes_length 4 w0) as L0. pose proof (be_bytes_length 4 w1) as L1. pose proof (be_bytes_length 4 w2) as L2. pose proof (be_bytes_length 4 w3) as L3.
  destruct (be_bytes 4 w0) as [|? [|? [|? [|? [|? ?]]]]]; try discriminate L0. destruct (be_bytes 4 w1) as [|? [|? [|? [|? [|? ?]]]]]; try discriminate L1.
  destruct (be_bytes 4 w2) as [|? [|? [|? [|? [|? ?]]]]]; try discriminate L2. destruct (be_bytes 4 w3) as [|? [|? [|? [|? [|? ?]]]]]; try discriminate L3.
  reflexivity.
Qed.

Lemma cipher_is : forall nr W s, length W = (4 * (nr + 1))%nat -> (1 <= nr)%nat -> length s = 16%nat -> bytes s ->
  aes_block_encrypt nr (aes_round_keys nr W) s = Cipher nr (B W) s.
Proof.
  intros nr W s HW Hnr Hl Hb. unfold aes_block_encrypt, Cipher. cbv zeta.
  destruct (round_keys_ok nr W HW) as [HK LK]. set (K := aes_round_keys nr W) in *.
  assert (forall i, (i <= nr)%nat -> length (nth i K []) = 16%nat /\ bytes (nth i K [])) as Hn.
  { intros i Hi. apply (Forall_nth key16); [exact HK|lia]. }
  replace (seq 1 nr) with (seq 1 (nr - 1) ++ [nr]) by (change [nr] with (seq nr 1); replace (seq nr 1) with (seq (1 + (nr - 1)) 1) by (f_equal; lia); rewrite <- seq_app; f_equal; lia).
  rewrite fold_left_app. cbn [fold_left].
  assert (forall t r, (r < nr)%nat -> length t = 16%nat -> bytes t -> aes_enc_round nr K t r = AddRoundKey (B W) r (MixColumns (ShiftRows (SubBytes t))) /\
    length (aes_enc_round nr K t r) = 16%nat /\ bytes (aes_enc_round nr K t r)) as R.
  { intros t r Hr Ht Tb. unfold aes_enc_round. cbv zeta. rewrite (proj2 (Nat.ltb_lt r nr) Hr).
    destruct (word_inverse_comp _ _ _ _ _ _ subbytes_inv shift_rows_inv t Ht Tb) as (_ & (L1 & B1) & _). cbv beta in L1, B1.
    destruct (columns_inv _ _ mix_col_inv _ L1 B1) as (_ & (L2 & B2) & _). destruct (Hn r ltac:(lia)) as [LK' BK].
    split; [|split].
    - unfold K. rewrite AddRoundKey_is by (assumption || lia). rewrite MixColumns_is by assumption.
      rewrite ShiftRows_is by (unfold aes_subbytes; rewrite map_length; exact Ht). rewrite SubBytes_is by assumption. reflexivity.
    - rewrite xorl_length, L2, LK'. reflexivity.
    - apply xorl_bytes; assumption. }
  assert (forall rs t, Forall (fun r => (r < nr)%nat) rs -> length t = 16%nat -> bytes t ->
    fold_left (aes_enc_round nr K) rs t = fold_left (fun s round => AddRoundKey (B W) round (MixColumns (ShiftRows (SubBytes s)))) rs t /\
    length (fold_left (aes_enc_round nr K) rs t) = 16%nat /\ bytes (fold_left (aes_enc_round nr K) rs t)) as F.
  { induction rs as [|r rs IH]; intros t Hrs Ht Tb; cbn [fold_left]; [auto|]. inversion Hrs; subst.
    destruct (R t r ltac:(assumption) Ht Tb) as (E & L1 & B1). rewrite <- E. apply IH; assumption. }
  destruct (Hn 0%nat ltac:(lia)) as [L0 B0].
  assert (length (xorl s (nth 0 K [])) = 16%nat) as Ls by (rewrite xorl_length, Hl, L0; reflexivity).
  assert (bytes (xorl s (nth 0 K []))) as Bs by (apply xorl_bytes; assumption).
  destruct (F (seq 1 (nr - 1)) (xorl s (nth 0 K []))) as (E & L1 & B1); [apply Forall_forall; intros r Hr; apply in_seq in Hr; lia|assumption|assumption|].
  rewrite <- (AddRoundKey_is nr W 0 s HW ltac:(lia) Hl : xorl s (nth 0 K []) = _). rewrite <- E.
  set (t := fold_left (aes_enc_round nr K) (seq 1 (nr - 1)) (xorl s (nth 0 K []))) in *.
  unfold aes_enc_round. cbv zeta. rewrite Nat.ltb_irrefl.
  destruct (word_inverse_comp _ _ _ _ _ _ subbytes_inv shift_rows_inv t L1 B1) as (_ & (L2 & B2) & _). cbv beta in L2, B2.
  unfold K. rewrite AddRoundKey_is by (assumption || lia).
  rewrite ShiftRows_is by (unfold aes_subbytes; rewrite map_length; exact L1). rewrite SubBytes_is by assumption. reflexivity.
Qed.

(* key expansion *)
Lemma xor4_is : forall x y, xor4 (be_bytes 4 x) (be_bytes 4 y) = be_bytes 4 (N.lxor x y).
Proof. intros. rewrite BcryptProofs.be_bytes_xor. rewrite !be_bytes4. reflexivity. Qed.
Lemma h_bytes : forall v, be_bytes 4 (aes_h v) = SubWord (be_bytes 4 v).
Proof.
  intro v. unfold aes_h. pose proof (be_bytes_length 4 v) as L. pose proof (be_bytes_bytes 4 v) as Hb.
  destruct (be_bytes 4 v) as [|a [|b [|c [|d [|? ?]]]]]; try discriminate L. unfold bytes in Hb. Forall_inv.
  cbn [map]. change 4%nat with (length [nthN aes_sbox a; nthN aes_sbox b; nthN aes_sbox c; nthN aes_sbox d]) at 1.
  rewrite be_bytes_val by (repeat constructor; apply sbox_ok; assumption).
  unfold SubWord. cbn [seq map nth]. rewrite !sbox_spec by assumption. reflexivity.
Qed.
Lemma rot_bytes : forall v, v < 2 ^ 32 -> be_bytes 4 (rotl32 v 8) = RotWord (be_bytes 4 v).
Proof.
  intros v Hv. change (rotl32 v 8) with (rotl 32 v 8). rewrite rotl_arith by (assumption || lia). rewrite !be_bytes4. unfold RotWord. cbn [seq map nth Nat.modulo Nat.divmod Nat.add fst snd Nat.sub].
  change (2 ^ (32 - 8)) with (2 ^ 24). change (2 ^ 8) with 256. change (2 ^ 16) with 65536 in *. change (2 ^ 24) with 16777216 in *. change (2 ^ 32) with 4294967296 in *.
  Ltac Zify.zify_post_hook ::= Z.div_mod_to_equations.
  repeat (f_equal; try lia).
Qed.

Lemma g_bytes : forall v i, (i < 10)%nat -> be_bytes 4 (aes_g v (nth i aes_rcon 0)) = xor4 (SubWord (RotWord (be_bytes 4 v))) (Rcon (i + 1)).
Proof.
  intros v i Hi. unfold aes_g. rewrite N.lxor_comm, <- xor4_is.
  assert (aes_h v < 2 ^ 32) as Hh.
  { unfold aes_h. change (2 ^ 32) with (256 ^ N.of_nat 4). replace 4%nat with (length (map (nthN aes_sbox) (be_bytes 4 v))) at 2 by (rewrite map_length; apply be_bytes_length).
    apply be_val_lt. apply Forall_map, Forall_forall. intros x Hx. apply sbox_ok. pose proof (be_bytes_bytes 4 v) as Hb. unfold bytes in Hb. rewrite Forall_forall in Hb. exact (Hb x Hx). }
  rewrite rot_bytes by exact Hh. rewrite h_bytes.
  assert (be_bytes 4 (nth i aes_rcon 0) = Rcon (i + 1)) as ->.
  { do 10 (destruct i as [|i]; [vm_compute; reflexivity|]). lia. }
  f_equal.
Qed.

Definition stepS (Nk : nat) (w : list (list N)) (i : nat) : list (list N) := w ++ [next_word Nk w i].
Definition temp (Nk : nat) (w : list (list N)) (i : nat) : list N :=
  let t := nth (i - 1) w [] in
  if Nat.eqb (i mod Nk) 0 then xor4 (SubWord (RotWord t)) (Rcon (i / Nk)) else if Nat.ltb 6 Nk && Nat.eqb (i mod Nk) 4 then SubWord t else t.
Lemma ext_is : forall nk W x, (1 <= nk <= length W)%nat -> be_bytes 4 x = temp nk (B W) (length W) ->
  B (aes_ext nk W x) = stepS nk (B W) (length W).
Proof.
  intros nk W x H E. unfold aes_ext, stepS, next_word. fold (temp nk (B W) (length W)). cbv zeta.
  change (xor4 (nth (length W - nk) (B W) []) _) with (xor4 (nth (length W - nk) (B W) []) (temp nk (B W) (length W))).
  rewrite <- E, B_nth, xor4_is by lia. unfold B. rewrite map_app. reflexivity.
Qed.
Lemma run_is : forall n nk W, (1 <= nk <= length W)%nat -> (forall j, (j < n)%nat -> ((length W + j) mod nk <> 0 /\ (6 < nk -> (length W + j) mod nk <> 4))%nat) ->
  B (aes_run nk n W) = fold_left (stepS nk) (seq (length W) n) (B W).
Proof.
  induction n as [|n IH]; intros nk W H Hj; [reflexivity|]. cbn [aes_run seq fold_left].
  rewrite IH.
  - rewrite ext_is by (exact H || (unfold temp; destruct (Hj 0%nat ltac:(lia)) as [H0 H4]; rewrite Nat.add_0_r in H0, H4;
      cbv zeta; rewrite (proj2 (Nat.eqb_neq _ _) H0); unfold back; rewrite <- B_nth by lia;
      destruct (Nat.ltb 6 nk) eqn:E6; [apply Nat.ltb_lt in E6; rewrite (proj2 (Nat.eqb_neq _ _) (H4 E6))|]; reflexivity)).
    rewrite aes_ext_len, Nat.add_1_r. reflexivity.
  - rewrite aes_ext_len. lia.
  - intros j Hjn. rewrite aes_ext_len. replace (length W + 1 + j)%nat with (length W + S j)%nat by lia. apply Hj. lia.
Qed.
Lemma chunk_is : forall nk more W i, length W = (nk * (i + 1))%nat -> (1 <= nk)%nat -> (more < nk)%nat -> (6 < nk -> more < 4)%nat -> (i < 10)%nat ->
  B (aes_chunk nk more W i) = fold_left (stepS nk) (seq (length W) (more + 1)) (B W).
Proof.
  intros nk more W i HW H1 Hm H6 Hi. unfold aes_chunk. rewrite Nat.add_1_r. cbn [seq fold_left].
  assert (forall j, (j < nk)%nat -> ((length W + j) mod nk = j)%nat) as M.
  { intros j Hj. rewrite HW, Nat.mul_comm, Nat.add_comm, Nat.mod_add by lia. apply Nat.mod_small, Hj. }
  rewrite run_is.
  - rewrite ext_is; [rewrite aes_ext_len, Nat.add_1_r; reflexivity|nia|].
    rewrite g_bytes by exact Hi. unfold temp, back. cbv zeta. rewrite <- B_nth by nia.
    pose proof (M 0%nat ltac:(lia)) as M0. rewrite Nat.add_0_r in M0. rewrite M0. cbn [Nat.eqb].
    replace (length W / nk)%nat with (i + 1)%nat by (rewrite HW, Nat.mul_comm, Nat.div_mul by lia; reflexivity). reflexivity.
  - rewrite aes_ext_len. nia.
  - intros j Hj. rewrite aes_ext_len. replace (length W + 1 + j)%nat with (length W + (1 + j))%nat by lia. rewrite M by lia. lia.
Qed.
Lemma chunk256_is : forall W i, length W = (8 * (i + 1))%nat -> (i < 10)%nat ->
  B (aes256_chunk W i) = fold_left (stepS 8) (seq (length W) 8) (B W).
Proof.
  intros W i HW Hi. unfold aes256_chunk. cbv zeta. pose proof (chunk_is 8 3 W i HW ltac:(lia) ltac:(lia) ltac:(lia) Hi) as E.
  pose proof (aes_chunk_len 8 3 W i) as L. set (V := aes_chunk 8 3 W i) in *. clearbody V.
  change (seq (length W) 8) with (seq (length W) (4 + 4)). rewrite seq_app, fold_left_app.
  assert (forall j, (j < 4)%nat -> ((length V + j) mod 8 = 4 + j)%nat) as M.
  { intros j Hj. rewrite L, HW. replace (8 * (i + 1) + 3 + 1 + j)%nat with (4 + j + (i + 1) * 8)%nat by lia. rewrite Nat.mod_add by lia. apply Nat.mod_small. lia. }
  change (3 + 1)%nat with 4%nat in E. rewrite <- E. replace (length W + 4)%nat with (length V) by lia.
  change (seq (length V) 4) with (length V :: seq (S (length V)) 3). cbn [fold_left].
  rewrite run_is.
  - rewrite ext_is; [rewrite aes_ext_len, Nat.add_1_r; reflexivity|lia|].
    rewrite h_bytes. unfold temp, back. cbv zeta. rewrite <- B_nth by lia.
    pose proof (M 0%nat ltac:(lia)) as M0. rewrite Nat.add_0_r in M0. rewrite M0. reflexivity.
  - rewrite aes_ext_len. lia.
  - intros j Hj. rewrite aes_ext_len. replace (length V + 1 + j)%nat with (length V + (1 + j))%nat by lia. rewrite M by lia. lia.
Qed.

Lemma chunks_is : forall nk (f : list N -> nat -> list N) n0,
  (forall W i, length (f W i) = (length W + nk)%nat) ->
  (forall W i, length W = (nk * (i + 1))%nat -> (i < n0)%nat -> B (f W i) = fold_left (stepS nk) (seq (length W) nk) (B W)) ->
  forall n W, (n <= n0)%nat -> length W = nk ->
  B (fold_left f (seq 0 n) W) = fold_left (stepS nk) (seq nk (n * nk)) (B W).
Proof.
  intros nk f n0 HL Hf n W Hn HW. induction n as [|n IH]; [reflexivity|].
  rewrite seq_S, fold_left_app. cbn [fold_left Nat.add].
  assert (length (fold_left f (seq 0 n) W) = (nk * (n + 1))%nat) as L.
  { rewrite (fold_len f nk) by exact HL. rewrite seq_length. nia. }
  rewrite Hf by (exact L || lia). rewrite IH by lia. rewrite L, <- fold_left_app.
  replace (nk * (n + 1))%nat with (nk + n * nk)%nat by lia. rewrite <- seq_app. f_equal. f_equal. lia.
Qed.

Lemma key_is : forall nk key, (1 <= nk)%nat -> length key = (4 * nk)%nat -> bytes key ->
  B (ld_user_key 4 nk (4 * nk) key) = map (fun i => map (fun j => nth (4 * i + j) key 0) (seq 0 4)) (seq 0 nk) /\ length (ld_user_key 4 nk (4 * nk) key) = nk.
Proof.
  intros nk key Hnk HL Hb.
  assert (key <> []) as Hne by (intros ->; cbn in HL; lia).
  rewrite (ld_user_key_words 4 nk (4 * nk) nk 0 key) by (assumption || lia). cbn [Nat.eqb].
  rewrite Nat.sub_diag. cbn [repeat]. rewrite app_nil_r. unfold load_be, B. split; [|rewrite map_length, seq_length; reflexivity].
  rewrite map_map. apply map_ext_in. intros i Hi. apply in_seq in Hi.
  assert (length (slice key (i * 4) 4) = 4%nat) as Ls by (apply slice_length; lia).
  rewrite <- Ls at 1. rewrite be_bytes_val.
  - rewrite slice4 by lia. replace (i * 4)%nat with (4 * i)%nat by lia. cbn [seq map]. rewrite Nat.add_0_r. reflexivity.
  - unfold slice. apply bytes_firstn, bytes_skipn, Hb.
Qed.

Lemma expand_is : forall Nk Nr n key, (4 * (Nr + 1) - Nk = n)%nat ->
  fold_left (stepS Nk) (seq Nk n) (map (fun i => map (fun j => nth (4 * i + j) key 0) (seq 0 4)) (seq 0 Nk)) = KeyExpansion Nk Nr key.
Proof. intros Nk Nr n key <-. reflexivity. Qed.
Lemma aes128_is : forall key x, length key = 16%nat -> bytes key -> length x = 16%nat -> bytes x -> bc_enc aes128 key x = AesSpec.AES128 key x.
Proof.
  intros key x Hk Kb Hx Xb. cbn [bc_enc aes128]. unfold aes128_eval_skeys, AesSpec.AES128, AES.
  destruct (key_is 4 key ltac:(lia) Hk Kb) as [E L]. change (4 * 4)%nat with 16%nat in E, L.
  assert (forall W i, length (aes_chunk 4 3 W i) = (length W + 4)%nat) as HL by (intros; rewrite aes_chunk_len; lia).
  rewrite cipher_is; [|rewrite (fold_len _ 4), L by exact HL; reflexivity|lia|exact Hx|exact Xb].
  rewrite (chunks_is 4 (aes_chunk 4 3) 10 HL); [|intros W i HW Hi; apply (chunk_is 4 3); (assumption || lia)|lia|exact L].
  rewrite E, (expand_is 4 10) by reflexivity. exact eq_refl.
Qed.
Lemma aes192_is : forall key x, length key = 24%nat -> bytes key -> length x = 16%nat -> bytes x -> bc_enc aes192 key x = AesSpec.AES192 key x.
Proof.
  intros key x Hk Kb Hx Xb. cbn [bc_enc aes192]. unfold aes192_eval_skeys, AesSpec.AES192, AES.
  destruct (key_is 6 key ltac:(lia) Hk Kb) as [E L]. change (4 * 6)%nat with 24%nat in E, L.
  assert (forall W i, length (aes_chunk 6 5 W i) = (length W + 6)%nat) as HL by (intros; rewrite aes_chunk_len; lia).
  assert (length (fold_left (aes_chunk 6 5) (seq 0 7) (ld_user_key 4 6 24 key)) = 48%nat) as L2 by (rewrite (fold_len _ 6), L by exact HL; reflexivity).
  rewrite cipher_is; [|rewrite aes_chunk_len, L2; reflexivity|lia|exact Hx|exact Xb].
  rewrite (chunk_is 6 3) by (exact L2 || lia). rewrite L2.
  rewrite (chunks_is 6 (aes_chunk 6 5) 7 HL); [|intros W i HW Hi; apply (chunk_is 6 5); (assumption || lia)|lia|exact L].
  rewrite E, <- fold_left_app. change (seq 6 (7 * 6) ++ seq 48 (3 + 1)) with (seq 6 46). rewrite (expand_is 6 12) by reflexivity. exact eq_refl.
Qed.
Lemma aes256_is : forall key x, length key = 32%nat -> bytes key -> length x = 16%nat -> bytes x -> bc_enc aes256 key x = AesSpec.AES256 key x.
Proof.
  intros key x Hk Kb Hx Xb. cbn [bc_enc aes256]. unfold aes256_eval_skeys, AesSpec.AES256, AES.
  destruct (key_is 8 key ltac:(lia) Hk Kb) as [E L]. change (4 * 8)%nat with 32%nat in E, L.
  assert (length (fold_left aes256_chunk (seq 0 6) (ld_user_key 4 8 32 key)) = 56%nat) as L2 by (rewrite (fold_len _ 8), L by exact aes256_chunk_len; reflexivity).
  rewrite cipher_is; [|rewrite aes_chunk_len, L2; reflexivity|lia|exact Hx|exact Xb].
  rewrite (chunk_is 8 3) by (exact L2 || lia). rewrite L2.
  rewrite (chunks_is 8 aes256_chunk 6 aes256_chunk_len); [|intros W i HW Hi; apply chunk256_is; (assumption || lia)|lia|exact L].
  rewrite E, <- fold_left_app. change (seq 8 (6 * 8) ++ seq 56 (3 + 1)) with (seq 8 52). rewrite (expand_is 8 14) by reflexivity. exact eq_refl.
Qed.
