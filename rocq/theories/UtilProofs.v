(* Lemmas behind UtilProps.v. *)
From Verif Require Import Words EncSpec CipherBase CipherLib RcProofs MpModel UtilModel.
From Coq Require Import PeanoNat.
Open Scope N_scope.

(* ---- bytes or-ed together *)
Lemma shift_join : forall x y k, y < 256 -> or (N.shiftl x (k + 8)) (N.shiftl y k) = N.shiftl (x * 256 + y) k.
Proof.
  intros x y k Hy. replace (k + 8) with (8 + k) by lia. rewrite <- N.shiftl_shiftl, <- N.shiftl_lor. f_equal. rewrite lor_add by exact Hy. reflexivity.
Qed.
Lemma or_fold : forall K f j, (forall i, (i < K)%nat -> f i < 256) -> (j <= K)%nat ->
  fold_left (fun v i => or v (N.shiftl (f i) (8 * N.of_nat (K - 1 - i)))) (seq 0 j) 0 = N.shiftl (be_val (map f (seq 0 j))) (8 * N.of_nat (K - j)).
Proof.
  intros K f j Hf. induction j as [|j IH]; intro Hj.
  - cbn [seq fold_left map be_val]. unfold be_val. cbn [fold_left]. rewrite N.shiftl_0_l. reflexivity.
  - rewrite seq_S, fold_left_app, IH by lia. cbn [fold_left Nat.add]. rewrite map_app. cbn [map]. rewrite be_val_app.
    replace (8 * N.of_nat (K - j)) with (8 * N.of_nat (K - S j) + 8) by lia. replace (K - 1 - j)%nat with (K - S j)%nat by lia.
    apply shift_join, Hf. lia.
Qed.
Lemma or_all : forall K f, (forall i, (i < K)%nat -> f i < 256) ->
  fold_left (fun v i => or v (N.shiftl (f i) (8 * N.of_nat (K - 1 - i)))) (seq 0 K) 0 = be_val (map f (seq 0 K)).
Proof. intros K f Hf. rewrite or_fold by (auto; lia). rewrite Nat.sub_diag. apply N.shiftl_0_r. Qed.

(* ---- bounded random numbers *)
Lemma drawn_val : forall k raw p, (forall i, raw i < 256) -> drawn k raw p = be_val (map raw (seq p k)).
Proof.
  intros k raw p H. unfold drawn. rewrite (or_all k (fun i => raw (p + i)%nat)) by auto. f_equal.
  assert (forall q, map (fun i => raw (p + i)%nat) (seq q k) = map raw (seq (p + q) k)) as A.
  { induction k as [|k IH]; intro q; [reflexivity|]. cbn [seq map]. f_equal. rewrite IH. f_equal. f_equal. lia. }
  rewrite A, Nat.add_0_r. reflexivity.
Qed.
Lemma accept_iff : forall M n r v, n <> 0 -> v < n -> (r < M - M mod n /\ r mod n = v) <-> exists j, j < M / n /\ r = v + n * j.
Proof.
  intros M n r v Hn Hv. assert (M - M mod n = n * (M / n)) as E.
  { pose proof (N.div_mod M n Hn) as X. rewrite X at 1. apply N.add_sub. } rewrite E. split.
  - intros [H1 H2]. exists (r / n). split; [apply N.div_lt_upper_bound; assumption|]. rewrite <- H2, N.add_comm. apply N.div_mod. exact Hn.
  - intros (j & H1 & ->). split.
    + apply N.lt_le_trans with (n * j + n); [lia|]. replace (n * j + n) with (n * (j + 1)) by lia. apply N.mul_le_mono_l. lia.
    + rewrite N.mul_comm, N.mod_add by exact Hn. apply N.mod_small. exact Hv.
Qed.
Lemma loop_first : forall fuel k n raw p v q, rand_loop fuel k n raw p = Some (v, q) <->
  exists i, (i < fuel)%nat /\ (forall j, (j < i)%nat -> (2 ^ (8 * N.of_nat k) - 1) - (2 ^ (8 * N.of_nat k) - 1) mod n <= drawn k raw (p + j * k)) /\
    drawn k raw (p + i * k) < (2 ^ (8 * N.of_nat k) - 1) - (2 ^ (8 * N.of_nat k) - 1) mod n /\
    v = drawn k raw (p + i * k) mod n /\ q = (p + i * k + k)%nat.
Proof.
  induction fuel as [|f IH]; intros k n raw p v q; cbn [rand_loop].
  - split; [discriminate|]. intros (i & H & _). lia.
  - set (M := 2 ^ (8 * N.of_nat k) - 1) in *. destruct (M - M mod n <=? drawn k raw p) eqn:E.
    + apply N.leb_le in E. rewrite IH. split.
      * intros (i & A & B & C & D & G). exists (S i). split; [lia|]. replace (p + S i * k)%nat with (p + k + i * k)%nat by lia. split; [|auto].
        intros [|j] Hj; [rewrite Nat.add_0_r; exact E|]. replace (p + S j * k)%nat with (p + k + j * k)%nat by lia. apply B. lia.
      * intros ([|i] & A & B & C & D & G); [rewrite Nat.add_0_r in C; exfalso; apply (N.lt_irrefl (drawn k raw p)); eapply N.lt_le_trans; eassumption|].
        exists i. split; [lia|]. replace (p + k + i * k)%nat with (p + S i * k)%nat by lia. split; [|auto].
        intros j Hj. replace (p + k + j * k)%nat with (p + S j * k)%nat by lia. apply B. lia.
    + apply N.leb_gt in E. split.
      * intro H. injection H as <- <-. exists 0%nat. rewrite Nat.add_0_r. split; [lia|]. split; [intros j Hj; lia|]. auto.
      * intros ([|i] & A & B & C & D & G).
        -- rewrite Nat.add_0_r in D, G. subst. reflexivity.
        -- specialize (B 0%nat ltac:(lia)). rewrite Nat.add_0_r in B. exfalso. apply (N.lt_irrefl (drawn k raw p)). eapply N.lt_le_trans; eassumption.
Qed.
Lemma loop_stuck : forall fuel k n raw p, 2 ^ (8 * N.of_nat k) - 1 < n -> rand_loop fuel k n raw p = None.
Proof.
  induction fuel as [|f IH]; intros k n raw p H; [reflexivity|]. cbn [rand_loop]. rewrite (N.mod_small _ _ H), N.sub_diag.
  rewrite (proj2 (N.leb_le 0 (drawn k raw p)) (N.le_0_l _)). apply IH. exact H.
Qed.

(* ---- byte order *)
Lemma mask_byte : forall w a, and w (N.shiftl 255 a) = N.shiftl ((w / 2 ^ a) mod 256) a.
Proof.
  intros w a. rewrite <- N.shiftr_div_pow2. change 256 with (2 ^ 8). rewrite <- N.land_ones. change 255 with (N.ones 8).
  apply N.bits_inj. intro j. rewrite N.land_spec. destruct (N.lt_ge_cases j a) as [H|H].
  - rewrite !N.shiftl_spec_low by exact H. apply Bool.andb_false_r.
  - rewrite !N.shiftl_spec_high' by exact H. rewrite N.land_spec, N.shiftr_spec'. replace (j - a + a) with j by lia. reflexivity.
Qed.
Lemma byte_mod : forall w s, and (N.shiftr w s) 0xFF = (w / 2 ^ s) mod 256.
Proof. intros w s. rewrite N.shiftr_div_pow2. change 0xFF with (N.ones 8). apply N.land_ones. Qed.
Lemma byte_lt : forall w s, (w / 2 ^ s) mod 256 < 256.
Proof. intros. apply N.mod_lt. discriminate. Qed.
Lemma shl_low : forall W w a b, a + b + 8 <= W -> shlw W (N.shiftl (w mod 256) a) b = N.shiftl (w mod 256) (a + b).
Proof.
  intros W w a b H. unfold shlw. rewrite N.shiftl_shiftl. apply N.mod_small. rewrite N.shiftl_mul_pow2.
  apply N.lt_le_trans with (2 ^ 8 * 2 ^ (a + b)).
  - apply N.mul_lt_mono_pos_r; [apply N.neq_0_lt_0, N.pow_nonzero; discriminate|]. change (2 ^ 8) with 256. apply N.mod_lt. discriminate.
  - rewrite <- N.pow_add_r. apply N.pow_le_mono_r; [discriminate|lia].
Qed.
Lemma shl_top : forall W w, 8 <= W -> shlw W w (W - 8) = N.shiftl (w mod 256) (W - 8).
Proof.
  intros W w H. unfold shlw. rewrite !N.shiftl_mul_pow2. change 256 with (2 ^ 8).
  replace (2 ^ W) with (2 ^ 8 * 2 ^ (W - 8)) by (rewrite <- N.pow_add_r; f_equal; lia).
  apply N.mul_mod_distr_r; apply N.pow_nonzero; discriminate.
Qed.
Lemma shr_low : forall x a b, N.shiftr (N.shiftl x (b + a)) b = N.shiftl x a.
Proof. intros. rewrite N.add_comm, <- N.shiftl_shiftl. rewrite N.shiftr_shiftl_r by lia. rewrite N.sub_diag. apply N.shiftr_0_r. Qed.
Lemma top_byte : forall w s, w < 2 ^ (s + 8) -> N.shiftr w s = (w / 2 ^ s) mod 256.
Proof.
  intros w s H. rewrite N.shiftr_div_pow2. symmetry. apply N.mod_small. apply N.div_lt_upper_bound; [apply N.pow_nonzero; discriminate|].
  rewrite N.pow_add_r in H. exact H.
Qed.
Lemma le_bytes_nth : forall K w, map (fun i => (w / 2 ^ (8 * N.of_nat i)) mod 256) (seq 0 K) = le_bytes K w.
Proof.
  intros K. assert (forall q w, map (fun i => (w / 2 ^ (8 * N.of_nat i)) mod 256) (seq q K) = le_bytes K (w / 2 ^ (8 * N.of_nat q))) as A.
  { induction K as [|K IH]; intros q w; [reflexivity|]. unfold le_bytes in *. cbn [seq map be_bytes]. rewrite rev_app_distr. cbn [rev app]. f_equal.
    rewrite IH. f_equal. f_equal. rewrite N.div_div by (try discriminate; apply N.pow_nonzero; discriminate). f_equal.
    change 256 with (2 ^ 8). rewrite <- N.pow_add_r. f_equal. lia. }
  intro w. rewrite A. f_equal. rewrite N.pow_0_r. apply N.div_1_r.
Qed.
Lemma u64_rev_val : forall w, w < 2 ^ 64 -> u64_rev w = be_val (le_bytes 8 w).
Proof.
  intros w Hw. rewrite <- le_bytes_nth.
  rewrite <- (or_all 8 (fun i => (w / 2 ^ (8 * N.of_nat i)) mod 256)) by (intros; apply byte_lt).
  cbn [seq fold_left]. rewrite N.lor_0_l. unfold u64_rev.
  change 0x000000000000FF00 with (N.shiftl 255 8). change 0x0000000000FF0000 with (N.shiftl 255 16). change 0x00000000FF000000 with (N.shiftl 255 24).
  change 0x000000FF00000000 with (N.shiftl 255 32). change 0x0000FF0000000000 with (N.shiftl 255 40). change 0x00FF000000000000 with (N.shiftl 255 48).
  rewrite !mask_byte. rewrite !shl_low by lia. change (shlw 64 w 56) with (shlw 64 w (64 - 8)). rewrite (shl_top 64 w ltac:(lia)).
  rewrite (shr_low _ 24 8 : N.shiftr (N.shiftl ((w / 2 ^ 32) mod 256) 32) 8 = _).
  rewrite (shr_low _ 16 24 : N.shiftr (N.shiftl ((w / 2 ^ 40) mod 256) 40) 24 = _).
  rewrite (shr_low _ 8 40 : N.shiftr (N.shiftl ((w / 2 ^ 48) mod 256) 48) 40 = _).
  rewrite (top_byte w 56 Hw). cbn [Nat.sub].
  change (8 * N.of_nat 0) with 0. change (8 * N.of_nat 1) with 8. change (8 * N.of_nat 2) with 16. change (8 * N.of_nat 3) with 24. change (8 * N.of_nat 4) with 32. change (8 * N.of_nat 5) with 40. change (8 * N.of_nat 6) with 48. change (8 * N.of_nat 7) with 56.
  rewrite N.shiftl_0_r, N.pow_0_r, N.div_1_r. reflexivity.
Qed.
Lemma u32_rev_val : forall w, w < 2 ^ 32 -> u32_rev w = be_val (le_bytes 4 w).
Proof.
  intros w Hw. rewrite <- le_bytes_nth.
  rewrite <- (or_all 4 (fun i => (w / 2 ^ (8 * N.of_nat i)) mod 256)) by (intros; apply byte_lt).
  cbn [seq fold_left]. rewrite N.lor_0_l. unfold u32_rev.
  change 0x0000FF00 with (N.shiftl 255 8). change 0x00FF0000 with (N.shiftl 255 16).
  rewrite !mask_byte. rewrite !shl_low by lia. change (shlw 32 w 24) with (shlw 32 w (32 - 8)). rewrite (shl_top 32 w ltac:(lia)).
  rewrite (shr_low _ 8 8 : N.shiftr (N.shiftl ((w / 2 ^ 16) mod 256) 16) 8 = _).
  rewrite (top_byte w 24 Hw). cbn [Nat.sub].
  change (8 * N.of_nat 0) with 0. change (8 * N.of_nat 1) with 8. change (8 * N.of_nat 2) with 16. change (8 * N.of_nat 3) with 24.
  rewrite N.shiftl_0_r, N.pow_0_r, N.div_1_r. reflexivity.
Qed.
Lemma take : forall k (d : list N), (k <= length d)%nat -> exists a b, d = a ++ b /\ length a = k.
Proof. intros k d H. exists (firstn k d), (skipn k d). split; [symmetry; apply firstn_skipn|]. rewrite firstn_length. lia. Qed.
Ltac small_list a L := repeat (destruct a as [|? a]; [discriminate L|]); destruct a; [|discriminate L]; clear L.
Lemma seq_nth : forall (a d : list N), map (fun i => nth i (a ++ d) 0) (seq 0 (length a)) = a.
Proof.
  intros a d. induction a as [|x a IH]; [reflexivity|]. cbn [length seq map app nth]. f_equal. rewrite <- seq_shift, map_map. exact IH.
Qed.
Lemma octet_nth : forall d i, octets d -> nth i d 0 < 256.
Proof.
  intros d i H. destruct (Nat.lt_ge_cases i (length d)) as [L|L]; [|rewrite nth_overflow by exact L; reflexivity].
  apply (proj1 (Forall_forall _ _) H), nth_In. exact L.
Qed.
Lemma get_fold : forall k d, octets d -> (k <= length d)%nat ->
  fold_left (fun v i => or v (N.shiftl (nth i d 0) (8 * N.of_nat (k - 1 - i)))) (seq 0 k) 0 = be_val (firstn k d).
Proof.
  intros k d O H. rewrite (or_all k (fun i => nth i d 0)) by (intros; apply octet_nth; exact O). f_equal.
  destruct (take k d H) as (a & b & -> & <-). rewrite seq_nth. symmetry. apply firstn_exact. reflexivity.
Qed.
Ltac short := let H := fresh in intro H; match goal with |- context [Nat.ltb ?a ?b] => rewrite (proj2 (Nat.ltb_ge a b) H) end.
Lemma get64 : forall d, octets d -> (8 <= length d)%nat -> get_u64_be d = be_val (firstn 8 d).
Proof. intros d O H. unfold get_u64_be. rewrite (proj2 (Nat.ltb_ge _ _) H). apply (get_fold 8 d O H). Qed.
Lemma get32 : forall d, octets d -> (4 <= length d)%nat -> get_u32_be d = be_val (firstn 4 d).
Proof.
  intros d O H. unfold get_u32_be. rewrite (proj2 (Nat.ltb_ge _ _) H). rewrite <- (get_fold 4 d O H). cbn [seq fold_left Nat.sub].
  change (8 * N.of_nat 3) with 24. change (8 * N.of_nat 2) with 16. change (8 * N.of_nat 1) with 8. change (8 * N.of_nat 0) with 0.
  rewrite N.lor_0_l, N.shiftl_0_r. reflexivity.
Qed.
Lemma get16 : forall d, octets d -> (2 <= length d)%nat -> get_u16_be d = be_val (firstn 2 d).
Proof.
  intros d O H. unfold get_u16_be. rewrite (proj2 (Nat.ltb_ge _ _) H). rewrite <- (get_fold 2 d O H). cbn [seq fold_left Nat.sub].
  change (8 * N.of_nat 1) with 8. change (8 * N.of_nat 0) with 0. rewrite N.lor_0_l, N.shiftl_0_r. reflexivity.
Qed.
Lemma be_bytes_nth : forall K w, be_bytes K w = rev (map (fun i => (w / 2 ^ (8 * N.of_nat i)) mod 256) (seq 0 K)).
Proof. intros. rewrite le_bytes_nth. symmetry. apply rev_involutive. Qed.
Lemma put64 : forall d v, (8 <= length d)%nat -> cpy_u64_be d v = Some (be_bytes 8 v ++ skipn 8 d).
Proof.
  intros d v H. unfold cpy_u64_be. rewrite (proj2 (Nat.ltb_ge _ _) H). f_equal. destruct (take 8 d H) as (a & b & -> & L).
  rewrite (skipn_exact _ a b 8 L). small_list a L. rewrite be_bytes_nth. cbn [seq fold_left upd app map rev Nat.sub]. rewrite !byte_mod. reflexivity.
Qed.
Lemma put32 : forall d v, (4 <= length d)%nat -> cpy_u32_be d v = Some (be_bytes 4 v ++ skipn 4 d).
Proof.
  intros d v H. unfold cpy_u32_be. rewrite (proj2 (Nat.ltb_ge _ _) H). f_equal. destruct (take 4 d H) as (a & b & -> & L).
  rewrite (skipn_exact _ a b 4 L). small_list a L. rewrite be_bytes_nth. cbn [seq fold_left upd app map rev Nat.sub].
  rewrite <- (N.shiftr_0_r v) at 4. rewrite !byte_mod. reflexivity.
Qed.
Lemma put16 : forall d v, (2 <= length d)%nat -> cpy_u16_be d v = Some (be_bytes 2 v ++ skipn 2 d).
Proof.
  intros d v H. unfold cpy_u16_be. rewrite (proj2 (Nat.ltb_ge _ _) H). f_equal. destruct (take 2 d H) as (a & b & -> & L).
  rewrite (skipn_exact _ a b 2 L). small_list a L. rewrite be_bytes_nth. cbn [seq fold_left upd app map rev Nat.sub].
  rewrite <- (N.shiftr_0_r v) at 2. rewrite !byte_mod. reflexivity.
Qed.
Lemma first_octets : forall k d, octets d -> (k <= length d)%nat -> bytes (firstn k d) /\ length (firstn k d) = k.
Proof.
  intros k d O H. split; [|rewrite firstn_length; lia]. apply bytes_firstn. exact O.
Qed.
Lemma get64_le : forall d, octets d -> (8 <= length d)%nat -> get_u64_le d = le_val (firstn 8 d).
Proof.
  intros d O H. unfold get_u64_le. rewrite (get64 d O H). destruct (first_octets 8 d O H) as [B L]. rewrite u64_rev_val.
  - unfold le_bytes, le_val. rewrite <- L at 1. rewrite be_bytes_val by exact B. reflexivity.
  - pose proof (be_val_lt _ B) as X. rewrite L in X. exact X.
Qed.
Lemma get32_le : forall d, octets d -> (4 <= length d)%nat -> get_u32_le d = le_val (firstn 4 d).
Proof.
  intros d O H. unfold get_u32_le. rewrite (get32 d O H). destruct (first_octets 4 d O H) as [B L]. rewrite u32_rev_val.
  - unfold le_bytes, le_val. rewrite <- L at 1. rewrite be_bytes_val by exact B. reflexivity.
  - pose proof (be_val_lt _ B) as X. rewrite L in X. exact X.
Qed.
Lemma put32_le : forall d v, v < 2 ^ 32 -> (4 <= length d)%nat -> cpy_u32_le d v = Some (le_bytes 4 v ++ skipn 4 d).
Proof.
  intros d v Hv H. unfold cpy_u32_le. rewrite put32 by exact H. rewrite u32_rev_val by exact Hv. f_equal. f_equal.
  rewrite <- (le_bytes_length 4 v) at 1. apply be_bytes_val, le_bytes_bytes.
Qed.

(* ---- djb2 *)
Lemma djb2_fold : forall l s t, s = t mod 2 ^ 64 ->
  fold_left (fun s b => addw 64 (addw 64 (shlw 64 s 5) s) b) l s = (fold_left (fun h b => 33 * h + b) l t) mod 2 ^ 64.
Proof.
  induction l as [|b l IH]; intros s t H; cbn [fold_left]; [exact H|]. apply IH. unfold addw, shlw. rewrite N.shiftl_mul_pow2.
  rewrite N.add_mod_idemp_l by discriminate. rewrite <- N.add_assoc, N.add_mod_idemp_l by discriminate. subst s.
  change (2 ^ 5) with 32. replace (t mod 2 ^ 64 * 32 + (t mod 2 ^ 64 + b)) with (33 * (t mod 2 ^ 64) + b) by (generalize (t mod 2 ^ 64); intro; lia).
  rewrite <- N.add_mod_idemp_l by discriminate. rewrite N.mul_mod_idemp_r by discriminate. apply N.add_mod_idemp_l. discriminate.
Qed.

(* ---- memory *)
Lemma free_all : forall m, freeseg m (length m) = Done (repeat 0 (length m)).
Proof. intro m. unfold freeseg. rewrite Nat.ltb_irrefl, skipn_all, app_nil_r. reflexivity. Qed.
Lemma mp_memory_length : forall v, length (mp_memory v) = (8 * length (data v))%nat.
Proof.
  intro v. unfold mp_memory. induction (data v) as [|x l IH]; [reflexivity|]. cbn [map concat length]. rewrite app_length, IH, le_bytes_length. lia.
Qed.
Lemma del_mp : forall v, del_mp_value v = Done (repeat 0 (length (data v)) ++ skipn (length (data v)) (mp_memory v)).
Proof. intro v. unfold del_mp_value, freeseg. rewrite (proj2 (Nat.ltb_ge _ _)); [reflexivity|]. rewrite mp_memory_length. lia. Qed.
Lemma pw2_total : forall e, exists v, pw2 e = Some v.
Proof.
  intro e. unfold pw2. destruct (nth_error pw2_lt (Z.to_nat ((e mod 2 ^ 64) mod 255))) as [v|] eqn:E; [exists v; reflexivity|].
  apply nth_error_None in E. change (length pw2_lt) with 255%nat in E. pose proof (Z.mod_pos_bound (e mod 2 ^ 64) 255 eq_refl). exfalso. lia.
Qed.
Lemma pw2_small : forall e, (0 <= e <= 30)%Z -> pw2 e = Some (2 ^ e)%Z.
Proof.
  intros e H. assert (In e (map Z.of_nat (seq 0 31))) as I.
  { apply in_map_iff. exists (Z.to_nat e). split; [lia|]. apply in_seq. lia. }
  revert e I H. apply (Forall_forall (fun e => (0 <= e <= 30)%Z -> pw2 e = Some (2 ^ e)%Z)).
  repeat constructor; intros _; vm_compute; reflexivity.
Qed.
Lemma pw2_large : forall e, (31 <= e <= 254)%Z -> pw2 e = Some (- 2 ^ 31)%Z.
Proof.
  intros e H. assert (In e (map Z.of_nat (seq 31 224))) as I.
  { apply in_map_iff. exists (Z.to_nat e). split; [lia|]. apply in_seq. lia. }
  revert e I H. assert (forallb (fun e => match pw2 e with Some v => Z.eqb v (- 2 ^ 31) | None => false end) (map Z.of_nat (seq 31 224)) = true) as A by (vm_compute; reflexivity).
  intros e I _. pose proof (proj1 (forallb_forall _ _) A e I) as X. cbn beta in X. destruct (pw2 e); [|discriminate]. apply Z.eqb_eq in X. rewrite X. reflexivity.
Qed.
(* ---- hexadecimal *)
Lemma hex_digit : forall n, n < 16 -> hex_lt n = if n <? 10 then 48 + n else 55 + n.
Proof.
  intros n H. assert (forallb (fun n => hex_lt n =? (if n <? 10 then 48 + n else 55 + n)) (map N.of_nat (seq 0 16)) = true) as A by (vm_compute; reflexivity).
  apply N.eqb_eq. apply (proj1 (forallb_forall _ _) A). apply in_map_iff. exists (N.to_nat n). split; [lia|]. apply in_seq. lia.
Qed.
From Verif Require Import MpSpec.
Lemma hex_of_digit : forall n, n < 16 -> hex_value (hex_lt n) = n.
Proof.
  intros n H. assert (forallb (fun n => hex_value (hex_lt n) =? n) (map N.of_nat (seq 0 16)) = true) as A by (vm_compute; reflexivity).
  apply N.eqb_eq. apply (proj1 (forallb_forall _ _) A n). apply in_map_iff. exists (N.to_nat n). split; [lia|]. apply in_seq. lia.
Qed.
Lemma hex_bytes : forall l, octets l ->
  hex_number (concat (map (fun b => [hex_lt (N.shiftr b 4); hex_lt (and b 0xF)]) l)) = be_val l /\
  length (concat (map (fun b => [hex_lt (N.shiftr b 4); hex_lt (and b 0xF)]) l)) = (2 * length l)%nat.
Proof.
  induction l as [|b l IH] using rev_ind; intro O; [split; reflexivity|]. apply Forall_app in O. destruct O as [O1 O2]. inversion O2 as [|x y Hb _]; subst.
  destruct (IH O1) as [A B]. rewrite map_app, concat_app, !app_length, B. split; [|cbn [map concat length app]; lia].
  unfold hex_number in *. rewrite fold_left_app, A, be_val_app. cbn [map concat app fold_left].
  change 0xF with (N.ones 4). rewrite N.shiftr_div_pow2, N.land_ones. change (2 ^ 4) with 16.
  assert (b mod 16 < 16) as H1 by (apply N.mod_lt; discriminate). assert (b / 16 < 16) as H2 by (apply N.div_lt_upper_bound; [discriminate|exact Hb]).
  rewrite !hex_of_digit by assumption. pose proof (N.div_mod b 16 ltac:(discriminate)) as X. set (q := b / 16) in *. set (m := b mod 16) in *. clearbody q m. lia.
Qed.
