From Verif Require Import Words EncSpec TaskModel ModeModel ModeSpec CipherBase CipherLib AesModel.
Open Scope N_scope.

Ltac Forall_inv := repeat match goal with H : Forall _ (_ :: _) |- _ => inversion H; clear H; subst end.

Definition xt (b : N) : N := if N.testbit b 7 then xor (2 * b) 0x11B else 2 * b.

Lemma xt_sweep : forallb (fun a => forallb (fun b => xt (xor a b) =? xor (xt a) (xt b)) all_bytes && (xt a <? 256)) all_bytes = true.
Proof. vm_compute. reflexivity. Qed.
Lemma xt_xor : forall a b, a < 256 -> b < 256 -> xt (xor a b) = xor (xt a) (xt b).
Proof.
  intros a b Ha Hb. pose proof (sweep_bytes _ xt_sweep a Ha) as H. cbv beta in H.
  apply Bool.andb_true_iff in H. destruct H as [H _].
  pose proof (sweep_bytes _ H b Hb) as H2. apply N.eqb_eq. exact H2.
Qed.
Lemma xt_lt : forall a, a < 256 -> xt a < 256.
Proof.
  intros a Ha. pose proof (sweep_bytes _ xt_sweep a Ha) as H. cbv beta in H.
  apply Bool.andb_true_iff in H. apply N.ltb_lt, H.
Qed.

Lemma mul_sweep : forallb (fun a =>
  (aes_mul_xy a 1 =? a) && (aes_mul_xy a 2 =? xt a) && (aes_mul_xy a 3 =? xor (xt a) a) &&
  (aes_mul_xy a 9 =? xor (xt (xt (xt a))) a) && (aes_mul_xy a 11 =? xor (xor (xt (xt (xt a))) (xt a)) a) &&
  (aes_mul_xy a 13 =? xor (xor (xt (xt (xt a))) (xt (xt a))) a) &&
  (aes_mul_xy a 14 =? xor (xor (xt (xt (xt a))) (xt (xt a))) (xt a)))%bool all_bytes = true.
Proof. vm_compute. reflexivity. Qed.
Lemma mul_ok : forall a, a < 256 ->
  aes_mul_xy a 1 = a /\ aes_mul_xy a 2 = xt a /\ aes_mul_xy a 3 = xor (xt a) a /\
  aes_mul_xy a 9 = xor (xt (xt (xt a))) a /\ aes_mul_xy a 11 = xor (xor (xt (xt (xt a))) (xt a)) a /\
  aes_mul_xy a 13 = xor (xor (xt (xt (xt a))) (xt (xt a))) a /\
  aes_mul_xy a 14 = xor (xor (xt (xt (xt a))) (xt (xt a))) (xt a).
Proof.
  intros a Ha. pose proof (sweep_bytes _ mul_sweep a Ha) as H. cbv beta in H.
  rewrite !Bool.andb_true_iff, !N.eqb_eq in H. tauto.
Qed.

Lemma sbox_sweep : forallb (fun x => ((nthN aes_sbox_1 (nthN aes_sbox x) =? x) && (nthN aes_sbox x <? 256) &&
  (nthN aes_sbox_1 x <? 256))%bool) all_bytes = true.
Proof. vm_compute. reflexivity. Qed.
Lemma sbox_ok : forall x, x < 2 ^ 8 -> nthN aes_sbox_1 (nthN aes_sbox x) = x /\ nthN aes_sbox x < 2 ^ 8 /\ nthN aes_sbox_1 x < 2 ^ 8.
Proof.
  intros x Hx. pose proof (sweep_bytes _ sbox_sweep x Hx) as H. cbv beta in H.
  rewrite !Bool.andb_true_iff, N.eqb_eq, !N.ltb_lt in H. tauto.
Qed.

Ltac b256 := first [assumption | apply xt_lt; b256 | apply (lxor_lt _ _ 8); b256].

Lemma mix_col_val : forall a b c d, a < 256 -> b < 256 -> c < 256 -> d < 256 ->
  aes_mix_col [a; b; c; d] =
  [xor (xor (xor (xt a) (xor (xt b) b)) c) d; xor (xor (xor a (xt b)) (xor (xt c) c)) d;
   xor (xor (xor a b) (xt c)) (xor (xt d) d); xor (xor (xor (xor (xt a) a) b) c) (xt d)].
Proof.
  intros a b c d Ha Hb Hc Hd. unfold aes_mix_col, aes_dot. cbn [nth].
  destruct (mul_ok a Ha) as (A1 & A2 & A3 & _). destruct (mul_ok b Hb) as (B1 & B2 & B3 & _).
  destruct (mul_ok c Hc) as (C1 & C2 & C3 & _). destruct (mul_ok d Hd) as (D1 & D2 & D3 & _).
  rewrite A1, A2, A3, B1, B2, B3, C1, C2, C3, D1, D2, D3. reflexivity.
Qed.

Lemma mix_col_inv : word_inverse 8 4 aes_mix_col aes_inv_mix_col.
Proof.
  intros ws Hl Hw. unfold words in *. destruct ws as [|a [|b [|c [|d [|? ?]]]]]; try discriminate Hl. Forall_inv.
  change (2 ^ 8) with 256 in *.
  assert (forall m x y z t, x < 256 -> y < 256 -> z < 256 -> t < 256 -> Forall (fun k => In k [1; 2; 3; 9; 11; 13; 14]) m ->
     length m = 4%nat -> aes_dot m [x; y; z; t] < 256) as Hdot.
  { intros m x y z t Hx Hy Hz Ht Hm Hlm. destruct m as [|m0 [|m1 [|m2 [|m3 [|? ?]]]]]; try discriminate Hlm.
    assert (forall v k, v < 256 -> In k [1; 2; 3; 9; 11; 13; 14] -> aes_mul_xy v k < 256) as Hmul.
    { intros v k Hv Hk. destruct (mul_ok v Hv) as (E1 & E2 & E3 & E4 & E5 & E6 & E7). cbn [In] in Hk.
      destruct Hk as [<-|[<-|[<-|[<-|[<-|[<-|[<-|[]]]]]]]];
        rewrite ?E1, ?E2, ?E3, ?E4, ?E5, ?E6, ?E7; b256. }
    Forall_inv. unfold aes_dot. cbn [nth]. repeat apply (lxor_lt _ _ 8); apply Hmul; assumption. }
  split; [|split; (split; [reflexivity|]);
    unfold aes_mix_col, aes_inv_mix_col; repeat (apply Forall_cons; [apply Hdot; try assumption; try reflexivity;
      repeat (apply Forall_cons; [cbn [In]; auto 10|]); apply Forall_nil|]); apply Forall_nil].
  rewrite mix_col_val by assumption.
  set (p := xor (xor (xor (xt a) (xor (xt b) b)) c) d). set (q := xor (xor (xor a (xt b)) (xor (xt c) c)) d).
  set (r := xor (xor (xor a b) (xt c)) (xor (xt d) d)). set (s := xor (xor (xor (xor (xt a) a) b) c) (xt d)).
  assert (p < 256) as Hp by (unfold p; b256). assert (q < 256) as Hq by (unfold q; b256).
  assert (r < 256) as Hr by (unfold r; b256). assert (s < 256) as Hs by (unfold s; b256).
  unfold aes_inv_mix_col, aes_dot. cbn [nth].
  destruct (mul_ok p Hp) as (_ & _ & _ & A1 & A2 & A3 & A4). destruct (mul_ok q Hq) as (_ & _ & _ & B1 & B2 & B3 & B4).
  destruct (mul_ok r Hr) as (_ & _ & _ & C1 & C2 & C3 & C4). destruct (mul_ok s Hs) as (_ & _ & _ & D1 & D2 & D3 & D4).
  rewrite A1, A2, A3, A4, B1, B2, B3, B4, C1, C2, C3, C4, D1, D2, D3, D4. clear - H1 H3 H2 H4.
  unfold p, q, r, s. repeat rewrite xt_xor by b256.
  f_equal; [xor_ring|]. f_equal; [xor_ring|]. f_equal; [xor_ring|]. f_equal. xor_ring.
Qed.

Lemma columns_inv : forall f g, word_inverse 8 4 f g -> word_inverse 8 16 (aes_columns f) (aes_columns g).
Proof.
  intros f g H ws Hl Hw. unfold words in *.
  destruct ws as [|c0 [|c1 [|c2 [|c3 [|c4 [|c5 [|c6 [|c7 [|c8 [|c9 [|c10 [|c11 [|c12 [|c13 [|c14 [|c15 [|? ?]]]]]]]]]]]]]]]]];
    try discriminate Hl. Forall_inv.
  assert (forall a b c d, a < 2 ^ 8 -> b < 2 ^ 8 -> c < 2 ^ 8 -> d < 2 ^ 8 -> Forall (fun x => x < 2 ^ 8) [a; b; c; d]) as F
    by (intros; repeat constructor; assumption).
  unfold aes_columns.
  change (slice [c0; c1; c2; c3; c4; c5; c6; c7; c8; c9; c10; c11; c12; c13; c14; c15] 0 4) with [c0; c1; c2; c3].
  change (slice [c0; c1; c2; c3; c4; c5; c6; c7; c8; c9; c10; c11; c12; c13; c14; c15] 4 4) with [c4; c5; c6; c7].
  change (slice [c0; c1; c2; c3; c4; c5; c6; c7; c8; c9; c10; c11; c12; c13; c14; c15] 8 4) with [c8; c9; c10; c11].
  change (slice [c0; c1; c2; c3; c4; c5; c6; c7; c8; c9; c10; c11; c12; c13; c14; c15] 12 4) with [c12; c13; c14; c15].
  destruct (H [c0; c1; c2; c3] eq_refl ltac:(apply F; assumption)) as (A0 & (B0 & C0) & (D0 & E0)).
  destruct (H [c4; c5; c6; c7] eq_refl ltac:(apply F; assumption)) as (A1 & (B1 & C1) & (D1 & E1)).
  destruct (H [c8; c9; c10; c11] eq_refl ltac:(apply F; assumption)) as (A2 & (B2 & C2) & (D2 & E2)).
  destruct (H [c12; c13; c14; c15] eq_refl ltac:(apply F; assumption)) as (A3 & (B3 & C3) & (D3 & E3)).
  assert (forall a b c d : list N, length a = 4%nat -> length b = 4%nat -> length c = 4%nat -> length d = 4%nat ->
     slice (a ++ b ++ c ++ d) 0 4 = a /\ slice (a ++ b ++ c ++ d) 4 4 = b /\
     slice (a ++ b ++ c ++ d) 8 4 = c /\ slice (a ++ b ++ c ++ d) 12 4 = d) as S.
  { intros a b c d Ha Hb Hc Hd.
    destruct a as [|? [|? [|? [|? [|? ?]]]]]; try discriminate Ha. destruct b as [|? [|? [|? [|? [|? ?]]]]]; try discriminate Hb.
    destruct c as [|? [|? [|? [|? [|? ?]]]]]; try discriminate Hc. destruct d as [|? [|? [|? [|? [|? ?]]]]]; try discriminate Hd.
    repeat split. }
  destruct (S _ _ _ _ B0 B1 B2 B3) as (-> & -> & -> & ->). rewrite A0, A1, A2, A3.
  split; [reflexivity|]. rewrite !app_length. unfold words in *.
  split; (split; [lia|]); repeat (apply Forall_app; split; [assumption|]); assumption.
Qed.

Lemma shift_rows_inv : word_inverse 8 16 aes_shift_rows aes_inv_shift_rows.
Proof. apply word_inverse_perm; reflexivity. Qed.
Lemma subbytes_inv : word_inverse 8 16 (aes_subbytes aes_sbox) (aes_subbytes aes_sbox_1).
Proof. apply word_inverse_map, sbox_ok. Qed.

Definition key16 (k : list N) : Prop := length k = 16%nat /\ words 8 k.

Lemma aes_inverse : forall nr K, Forall key16 K -> length K = (nr + 1)%nat ->
  inverse_on 16 (aes_block_encrypt nr K) (aes_block_decrypt nr K).
Proof.
  intros nr K HK HL. assert (forall i, (i < nr + 1)%nat -> key16 (nth i K [])) as Hn.
  { intros i Hi. apply Forall_nth; [exact HK|lia]. }
  apply inverse_bytes. unfold aes_block_encrypt, aes_block_decrypt.
  destruct (Hn 0%nat ltac:(lia)) as [L0 W0].
  apply (word_inverse_comp 8 16 (fun s => xorl s (nth 0 K [])) (fun s => xorl s (nth 0 K []))
    (fun s => fold_left (aes_enc_round nr K) (seq 1 nr) s) (fun s => fold_left (aes_dec_round nr K) (rev (seq 1 nr)) s));
    [apply word_inverse_xor; assumption|].
  apply word_inverse_fold. intros r Hr. apply in_seq in Hr. destruct (Hn r ltac:(lia)) as [Lr Wr].
  unfold aes_enc_round, aes_dec_round. cbv zeta.
  pose proof (word_inverse_comp _ _ _ _ _ _ subbytes_inv shift_rows_inv) as H1.
  destruct (Nat.ltb r nr).
  - pose proof (word_inverse_comp _ _ _ _ _ _ H1 (columns_inv _ _ mix_col_inv)) as H2.
    exact (word_inverse_comp _ _ _ _ _ _ H2 (word_inverse_xor 8 16 _ Lr Wr)).
  - exact (word_inverse_comp _ _ _ _ _ _ H1 (word_inverse_xor 8 16 _ Lr Wr)).
Qed.

Lemma store_be_bytes' : forall wb ws, words 8 (store_be wb ws).
Proof.
  intros wb ws. unfold store_be. induction ws as [|a ws IH]; [constructor|]. cbn [map concat].
  apply words_app. split; [apply be_bytes_bytes|exact IH].
Qed.
Lemma store_be_len : forall wb ws, length (store_be wb ws) = (wb * length ws)%nat.
Proof.
  intros wb ws. unfold store_be. induction ws as [|a ws IH]; [cbn; lia|]. cbn [map concat length].
  rewrite app_length, be_bytes_length, IH. lia.
Qed.
Lemma round_keys_ok : forall nr W, length W = (4 * (nr + 1))%nat ->
  Forall key16 (aes_round_keys nr W) /\ length (aes_round_keys nr W) = (nr + 1)%nat.
Proof.
  intros nr W HW. unfold aes_round_keys. rewrite map_length, seq_length. split; [|reflexivity].
  apply Forall_map, Forall_forall. intros r Hr. apply in_seq in Hr. split; [|apply store_be_bytes'].
  rewrite store_be_len, slice_length by lia. reflexivity.
Qed.

Lemma aes_ext_len : forall nk W x, length (aes_ext nk W x) = (length W + 1)%nat.
Proof. intros. unfold aes_ext. rewrite app_length. reflexivity. Qed.
Lemma aes_run_len : forall n nk W, length (aes_run nk n W) = (length W + n)%nat.
Proof.
  induction n as [|n IH]; intros; cbn [aes_run]; [lia|]. rewrite IH, aes_ext_len. lia.
Qed.
Lemma aes_chunk_len : forall nk more W i, length (aes_chunk nk more W i) = (length W + more + 1)%nat.
Proof. intros. unfold aes_chunk. rewrite aes_run_len, aes_ext_len. lia. Qed.
Lemma aes256_chunk_len : forall W i, length (aes256_chunk W i) = (length W + 8)%nat.
Proof. intros. unfold aes256_chunk. cbv zeta. rewrite aes_run_len, aes_ext_len, aes_chunk_len. lia. Qed.
Lemma fold_len : forall (f : list N -> nat -> list N) c l W, (forall W i, length (f W i) = (length W + c)%nat) ->
  length (fold_left f l W) = (length W + length l * c)%nat.
Proof.
  intros f c l. induction l as [|i l IH]; intros W H; cbn [fold_left length]; [lia|]. rewrite IH, H by exact H. lia.
Qed.

Lemma skeys128_ok : forall key, bytes key ->
  Forall key16 (aes128_eval_skeys key) /\ length (aes128_eval_skeys key) = 11%nat.
Proof.
  intros key Hk. apply (round_keys_ok 10). destruct (ld_user_key_ok 4 4 16 key Hk ltac:(lia)) as [_ L].
  rewrite (fold_len _ 4), L; [reflexivity|]. intros. rewrite aes_chunk_len. lia.
Qed.
Lemma skeys192_ok : forall key, bytes key ->
  Forall key16 (aes192_eval_skeys key) /\ length (aes192_eval_skeys key) = 13%nat.
Proof.
  intros key Hk. apply (round_keys_ok 12). destruct (ld_user_key_ok 4 6 24 key Hk ltac:(lia)) as [_ L].
  rewrite aes_chunk_len, (fold_len _ 6), L; [reflexivity|]. intros. rewrite aes_chunk_len. lia.
Qed.
Lemma skeys256_ok : forall key, bytes key ->
  Forall key16 (aes256_eval_skeys key) /\ length (aes256_eval_skeys key) = 15%nat.
Proof.
  intros key Hk. apply (round_keys_ok 14). destruct (ld_user_key_ok 4 8 32 key Hk ltac:(lia)) as [_ L].
  rewrite aes_chunk_len, (fold_len _ 8), L; [reflexivity|]. apply aes256_chunk_len.
Qed.

Lemma aes128_lawful : lawful aes128.
Proof.
  unfold lawful. cbn [aes128 bc_id bc_bs bc_enc bc_dec].
  split; [reflexivity|]. split; [reflexivity|]. split; [lia|]. intros key (_ & Hk & _).
  apply aes_inverse; apply skeys128_ok, Hk.
Qed.
Lemma aes192_lawful : lawful aes192.
Proof.
  unfold lawful. cbn [aes192 bc_id bc_bs bc_enc bc_dec].
  split; [reflexivity|]. split; [reflexivity|]. split; [lia|]. intros key (_ & Hk & _).
  apply aes_inverse; apply skeys192_ok, Hk.
Qed.
Lemma aes256_lawful : lawful aes256.
Proof.
  unfold lawful. cbn [aes256 bc_id bc_bs bc_enc bc_dec].
  split; [reflexivity|]. split; [reflexivity|]. split; [lia|]. intros key (_ & Hk & _).
  apply aes_inverse; apply skeys256_ok, Hk.
Qed.
