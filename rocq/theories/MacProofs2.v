(* Lemmas about HOTP, TOTP, the cipher+MAC pipeline and the forgeries. *)
From Verif Require Import Words EncSpec TaskModel CipherBase CipherLib StreamProofs HashModel HashSpec HashProofs HashProofs2 HashProofs3 HashProofs4 MacModel MacSpec MacProofs.
From Coq Require Import PeanoNat.
Open Scope N_scope.

(* ---- truncation *)
Lemma rd_nth : forall l i, (N.to_nat i < length l)%nat -> rd l i = Done (nth (N.to_nat i) l 0).
Proof. intros l i H. unfold rd. rewrite (nth_error_nth' l 0 H). reflexivity. Qed.
Lemma last_nth : forall (l : list N), l <> [] -> last l 0 = nth (length l - 1) l 0.
Proof.
  intros l H. destruct (exists_last H) as (a & x & ->). rewrite last_last, app_length. cbn [length]. rewrite Nat.add_sub, nth_middle. reflexivity.
Qed.
Lemma octets_nth : forall l i, octets l -> nth i l 0 < 256.
Proof.
  intros l i H. destruct (Nat.lt_ge_cases i (length l)) as [Hi|Hi]; [|rewrite nth_overflow by exact Hi; reflexivity].
  unfold octets in H. rewrite Forall_forall in H. apply H, nth_In, Hi.
Qed.
Lemma low31 : forall b0 b1 b2 b3, b0 < 256 -> b1 < 256 -> b2 < 256 -> b3 < 256 ->
  or (or (or (shl32 (and b0 0x7F) 24) (shl32 b1 16)) (shl32 b2 8)) b3 = be_val [b0; b1; b2; b3] mod 2 ^ 31.
Proof.
  intros b0 b1 b2 b3 H0 H1 H2 H3. change 0x7F with (N.ones 7). rewrite N.land_ones. change (2 ^ 7) with 128.
  assert (forall x k, x * 2 ^ k < 2 ^ 32 -> shl32 x k = N.shiftl x k) as S.
  { intros x k Hx. unfold shlw. rewrite N.mod_small; [reflexivity|]. rewrite N.shiftl_mul_pow2. exact Hx. }
  pose proof (N.mod_lt b0 128 ltac:(discriminate)).
  rewrite !S by (change (2 ^ 24) with 16777216; change (2 ^ 16) with 65536; change (2 ^ 8) with 256; change (2 ^ 32) with 4294967296; lia).
  rewrite or_bytes by assumption. unfold be_val. cbn [fold_left].
  rewrite !N.mul_0_l, !N.add_0_l.
  rewrite (N.div_mod b0 128) at 2 by discriminate. change (2 ^ 31) with (128 * 16777216).
  replace ((((128 * (b0 / 128) + b0 mod 128) * 256 + b1) * 256 + b2) * 256 + b3)
    with ((((b0 mod 128 * 256 + b1) * 256 + b2) * 256 + b3) + (b0 / 128) * (128 * 16777216)) by ring.
  rewrite N.mod_add by discriminate. symmetry. apply N.mod_small. lia.
Qed.
Lemma trunc_spec : forall HS rest d, octets HS -> (19 <= length HS)%nat -> d <= 9 ->
  hotp_trunc (HS ++ rest) (length HS) d = Done (truncate HS mod 10 ^ d).
Proof.
  intros HS rest d O L Hd. unfold hotp_trunc. replace (Nat.eqb (length HS) 0) with false by (symmetry; apply Nat.eqb_neq; lia).
  rewrite rd_nth by (rewrite Nat2N.id, app_length; lia). rewrite Nat2N.id, app_nth1 by lia. cbn [obind]. cbv zeta.
  assert (HS <> []) as Hn by (intro E; rewrite E in L; cbn [length] in L; lia).
  rewrite <- (last_nth HS Hn). change (and (last HS 0) 15) with (N.land (last HS 0) (N.ones 4)). rewrite N.land_ones. change (2 ^ 4) with 16.
  unfold truncate. cbv zeta. set (o := last HS 0 mod 16). assert (o < 16) as Ho by (apply N.mod_lt; discriminate).
  rewrite !rd_nth by (rewrite app_length; lia). rewrite !app_nth1 by lia. cbn [obind].
  assert (rd [1; 10; 100; 1000; 10000; 100000; 1000000; 10000000; 100000000; 1000000000] d = Done (10 ^ d)) as E.
  { unfold rd. assert (d = 0 \/ d = 1 \/ d = 2 \/ d = 3 \/ d = 4 \/ d = 5 \/ d = 6 \/ d = 7 \/ d = 8 \/ d = 9) as D by lia.
    repeat (destruct D as [->|D]; [reflexivity|]). subst d. reflexivity. }
  rewrite E. cbn [obind]. rewrite low31 by (apply octets_nth; exact O).
  change (firstn 4 (skipn (N.to_nat o) HS)) with (slice HS (N.to_nat o) 4). rewrite slice4 by lia.
  replace (N.to_nat (o + 1)) with (N.to_nat o + 1)%nat by lia. replace (N.to_nat (o + 2)) with (N.to_nat o + 2)%nat by lia.
  replace (N.to_nat (o + 3)) with (N.to_nat o + 3)%nat by lia. reflexivity.
Qed.
Lemma counter8 : forall c, [and (shr c 56) 0xFF; and (shr c 48) 0xFF; and (shr c 40) 0xFF; and (shr c 32) 0xFF;
              and (shr c 24) 0xFF; and (shr c 16) 0xFF; and (shr c 8) 0xFF; and c 0xFF] = be_bytes 8 c.
Proof.
  intro c. change 0xFF with (N.ones 8). rewrite !N.land_ones, !N.shiftr_div_pow2. cbn [be_bytes app]. rewrite !N.div_div by discriminate. reflexivity.
Qed.

Section Otp.
  Variables (p : hash_ptrs) (H : list N -> list N) (B hs : nat) (K : list N) (d r : N).
  Hypothesis I : implements p H B hs.
  Hypothesis Hhs : (19 <= hs)%nat.
  Hypothesis HK : text_ok K.
  Hypothesis Hd : d <= 9.
  Definition tok (c : N) : list N := le_bytes 4 (HOTP H B K d c).
  Lemma do_hotp_spec : forall act token s, act = GenerateToken \/ act = ValidateToken ->
    do_hotp (mkOtp act K r d p) token s =
    match act with
    | GenerateToken => Done (mkOS (os_c s) (os_t s) Success (Some (tok (os_c s))))
    | _ => if os_t s =? 0 then Done (mkOS (os_c s) (os_t s) InvalidToken (os_out s))
           else if eqb_list (tok (os_c s)) token then Done (mkOS (os_c s) (os_t s) Success (os_out s))
           else Done (mkOS (os_c s) (os_t s - 1) InvalidToken (os_out s))
    end.
  Proof.
    intros act token s Ha. unfold do_hotp. cbn [otp_action otp_hash otp_key otp_digits].
    rewrite counter8.
    assert (text_ok (be_bytes 8 (os_c s))) as Ht. { split; [apply (proj2 (octets_bytes _)), be_bytes_bytes|rewrite be_bytes_length; reflexivity]. }
    assert (be_bytes 8 (os_c s) <> []) as Hn by (intro E; apply (f_equal (@length N)) in E; rewrite be_bytes_length in E; discriminate).
    rewrite (hmac_call_spec p H B hs I K (be_bytes 8 (os_c s)) HK Ht Hn). cbn [obind mt_result mt_out].
    destruct (pointers p H B hs I) as (fn & _ & _ & E3). rewrite E3.
    destruct (HMAC_ok p H B hs I K _ HK Ht) as [L O].
    pose proof (trunc_spec (HMAC H B K (be_bytes 8 (os_c s))) (be_bytes 8 (os_c s)) d O ltac:(lia) Hd) as T. rewrite L in T. rewrite T. cbn [obind].
    fold (HOTP H B K d (os_c s)). fold (tok (os_c s)).
    destruct Ha as [->| ->]; [reflexivity|]. cbn [action_beq andb]. destruct (os_t s =? 0); [reflexivity|]. reflexivity.
  Qed.
  Definition V := mkOtp ValidateToken K r d p.
  Lemma resync_accept : forall n k c t o token, 1 <= k -> k <= N.of_nat n -> k <= t -> token = tok ((c + k) mod 2 ^ 64) ->
    (forall j, 1 <= j < k -> token <> tok ((c + j) mod 2 ^ 64)) ->
    hotp_resync n V token (mkOS c t InvalidToken o) = Done (mkOS ((c + k) mod 2 ^ 64) (t - (k - 1)) Success o).
  Proof.
    induction n as [|n IH]; intros k c t o token H1 H2 H3 H4 H5; [lia|].
    cbn [hotp_resync os_result result_beq]. unfold V. rewrite do_hotp_spec by (right; reflexivity). fold V. cbn [bump os_c os_t os_out os_result].
    replace (t =? 0) with false by (symmetry; apply N.eqb_neq; lia).
    destruct (eqb_list (tok ((c + 1) mod 2 ^ 64)) token) eqn:E.
    - apply eqb_list_eq in E. assert (k = 1) as ->. { destruct (N.eq_dec k 1); [assumption|]. exfalso. apply (H5 1); [lia|]. symmetry. exact E. }
      cbn [obind]. destruct n; cbn [hotp_resync os_result result_beq]; rewrite N.sub_diag, N.sub_0_r; reflexivity.
    - cbn [obind].
      assert (k <> 1) as Hk. { intro X. subst k. rewrite <- H4 in E. assert (eqb_list token token = true) as Y by (apply eqb_list_eq; reflexivity). congruence. }
      rewrite (IH (k - 1) ((c + 1) mod 2 ^ 64) (t - 1) o token).
      + do 2 f_equal; [|lia]. rewrite N.add_mod_idemp_l by discriminate. f_equal. lia.
      + lia.
      + lia.
      + lia.
      + rewrite N.add_mod_idemp_l by discriminate. replace (c + 1 + (k - 1)) with (c + k) by lia. exact H4.
      + intros j Hj. rewrite N.add_mod_idemp_l by discriminate. replace (c + 1 + j) with (c + (j + 1)) by lia. apply H5. lia.
  Qed.
  Lemma resync_reject : forall n c t o token, c < 2 ^ 64 -> (forall j, 1 <= j <= N.of_nat n -> j <= t -> token <> tok ((c + j) mod 2 ^ 64)) ->
    hotp_resync n V token (mkOS c t InvalidToken o) = Done (mkOS ((c + N.of_nat n) mod 2 ^ 64) (t - N.of_nat n) InvalidToken o).
  Proof.
    induction n as [|n IH]; intros c t o token Hc H1; [cbn [hotp_resync]; rewrite N.add_0_r, N.sub_0_r, N.mod_small by exact Hc; reflexivity|].
    cbn [hotp_resync os_result result_beq]. unfold V. rewrite do_hotp_spec by (right; reflexivity). fold V. cbn [bump os_c os_t os_out os_result].
    assert (forall t', t' = t - 1 -> hotp_resync n V token (mkOS ((c + 1) mod 2 ^ 64) t' InvalidToken o) =
      Done (mkOS ((c + N.of_nat (S n)) mod 2 ^ 64) (t - N.of_nat (S n)) InvalidToken o)) as R.
    { intros t' ->. rewrite IH.
      - do 2 f_equal; [|lia]. rewrite N.add_mod_idemp_l by discriminate. f_equal. lia.
      - apply N.mod_lt. discriminate.
      - intros j Hj Hj'. rewrite N.add_mod_idemp_l by discriminate. replace (c + 1 + j) with (c + (j + 1)) by lia. apply H1; lia. }
    destruct (t =? 0) eqn:Et.
    - apply N.eqb_eq in Et. cbn [obind]. apply R. lia.
    - apply N.eqb_neq in Et. destruct (eqb_list (tok ((c + 1) mod 2 ^ 64)) token) eqn:E.
      + exfalso. apply eqb_list_eq in E. apply (H1 1); [lia|lia|]. symmetry. exact E.
      + cbn [obind]. apply R. reflexivity.
  Qed.
  Lemma validate_accept : forall k c t o res token, c < 2 ^ 64 -> k <= r -> k < t -> token = tok ((c + k) mod 2 ^ 64) ->
    (forall j, j < k -> token <> tok ((c + j) mod 2 ^ 64)) ->
    kryptos_hotp V token (mkOS c t res o) = Done (mkOS ((c + k + 1) mod 2 ^ 64) (t - k) Success o).
  Proof.
    intros k c t o res token Hc H1 H2 H3 H4. unfold kryptos_hotp. unfold V. rewrite do_hotp_spec by (right; reflexivity). fold V. cbn [os_c os_t os_out].
    replace (t =? 0) with false by (symmetry; apply N.eqb_neq; lia).
    destruct (eqb_list (tok c) token) eqn:E.
    - apply eqb_list_eq in E. assert (k = 0) as ->. { destruct (N.eq_dec k 0); [assumption|]. exfalso. apply (H4 0); [lia|]. rewrite N.add_0_r, N.mod_small by exact Hc. symmetry. exact E. }
      cbn [obind os_result result_beq bump os_c os_t os_out]. rewrite N.add_0_r, N.sub_0_r. reflexivity.
    - assert (k <> 0) as Hk. { intro X. subst k. rewrite N.add_0_r, N.mod_small in H3 by exact Hc. rewrite <- H3 in E. assert (eqb_list token token = true) as Y by (apply eqb_list_eq; reflexivity). congruence. }
      cbn [obind os_result result_beq andb os_t otp_action V action_beq otp_resync].
      replace (0 <? t - 1) with true by (symmetry; apply N.ltb_lt; lia).
      fold V. rewrite (resync_accept (N.to_nat r) k c (t - 1) o token) by (try assumption; try lia; intros j Hj; apply H4; lia).
      cbn [obind os_result result_beq]. unfold bump. cbn [os_c os_t os_result os_out]. rewrite N.add_mod_idemp_l by discriminate. replace (t - 1 - (k - 1)) with (t - k) by lia. reflexivity.
  Qed.
  Lemma validate_reject : forall c t o res token, c < 2 ^ 64 -> (forall k, k <= r -> k < t -> token <> tok ((c + k) mod 2 ^ 64)) ->
    kryptos_hotp V token (mkOS c t res o) =
    Done (if 1 <? t then mkOS ((c + r) mod 2 ^ 64) (t - 1 - r) InvalidToken o else mkOS c 0 InvalidToken o).
  Proof.
    intros c t o res token Hc H1. unfold kryptos_hotp. unfold V. rewrite do_hotp_spec by (right; reflexivity). fold V. cbn [os_c os_t os_out].
    destruct (t =? 0) eqn:Et.
    - apply N.eqb_eq in Et. subst t. reflexivity.
    - apply N.eqb_neq in Et. destruct (eqb_list (tok c) token) eqn:E.
      + exfalso. apply eqb_list_eq in E. apply (H1 0); [lia|lia|]. rewrite N.add_0_r, N.mod_small by exact Hc. symmetry. exact E.
      + cbn [obind os_result result_beq andb os_t otp_action V action_beq otp_resync]. destruct (N.ltb_spec 1 t) as [Ht|Ht].
        * replace (0 <? t - 1) with true by (symmetry; apply N.ltb_lt; lia). fold V.
          rewrite (resync_reject (N.to_nat r) c (t - 1) o token Hc) by (intros j Hj Hj'; apply H1; lia).
          cbn [obind os_result result_beq]. rewrite N2Nat.id. reflexivity.
        * replace (t - 1) with 0 by lia. reflexivity.
  Qed.
  (* the least match in the window, if there is one *)
  Lemma least_match : forall c t token n, (exists k, k < N.of_nat n /\ k < t /\ token = tok ((c + k) mod 2 ^ 64) /\ forall j, j < k -> token <> tok ((c + j) mod 2 ^ 64)) \/
    (forall k, k < N.of_nat n -> k < t -> token <> tok ((c + k) mod 2 ^ 64)).
  Proof.
    intros c t token. induction n as [|n IH]; [right; lia|].
    destruct IH as [(k & A1 & A2 & A3 & A4)|A]; [left; exists k; repeat split; try assumption; lia|].
    destruct (N.ltb_spec (N.of_nat n) t) as [Ht|Ht].
    - destruct (eqb_list token (tok ((c + N.of_nat n) mod 2 ^ 64))) eqn:E.
      + apply eqb_list_eq in E. left. exists (N.of_nat n). repeat split; [lia|exact Ht|exact E|]. intros j Hj. apply A; lia.
      + right. intros k H1 H2. destruct (N.eq_dec k (N.of_nat n)) as [->|Hne]; [|apply A; lia].
        intro X. rewrite <- X in E. assert (eqb_list token token = true) as Y by (apply eqb_list_eq; reflexivity). congruence.
    - right. intros k H1 H2. apply A; lia.
  Qed.
  Lemma validate_any : forall c t o res token, c < 2 ^ 64 -> exists s', kryptos_hotp V token (mkOS c t res o) = Done s' /\ os_c s' < 2 ^ 64 /\
    ((os_result s' = Success /\ exists k, k <= r /\ token = tok ((c + k) mod 2 ^ 64) /\ os_c s' = (c + k + 1) mod 2 ^ 64) \/
     (os_result s' = InvalidToken /\ exists e, e <= r /\ os_c s' = (c + e) mod 2 ^ 64)).
  Proof.
    intros c t o res token Hc. destruct (least_match c t token (S (N.to_nat r))) as [(k & A1 & A2 & A3 & A4)|A].
    - eexists. split; [apply (validate_accept k); try assumption; lia|]. cbn [os_c os_result]. split; [apply N.mod_lt; discriminate|].
      left. split; [reflexivity|]. exists k. repeat split; [lia|exact A3].
    - eexists. split; [apply validate_reject; [exact Hc|intros k H1 H2; apply A; lia]|]. destruct (1 <? t); cbn [os_c os_result].
      + split; [apply N.mod_lt; discriminate|]. right. split; [reflexivity|]. exists r. split; [lia|reflexivity].
      + split; [exact Hc|]. right. split; [reflexivity|]. exists 0. split; [lia|]. rewrite N.add_0_r, N.mod_small by exact Hc. reflexivity.
  Qed.
  Lemma history_counters : forall tokens s rs, os_c s + N.of_nat (length tokens) * (r + 1) < 2 ^ 64 -> hotp_history V tokens s = Done rs ->
    length rs = length tokens /\
    (forall i res c, nth_error rs i = Some (res, c) -> os_c s <= c /\
       (res = Success -> exists k token, os_c s <= k < c /\ nth_error tokens i = Some token /\ token = tok k)) /\
    (forall i j res c res' c', (i < j)%nat -> nth_error rs i = Some (res, c) -> nth_error rs j = Some (res', c') -> c <= c' /\
       (res' = Success -> exists k token, c <= k < c' /\ nth_error tokens j = Some token /\ token = tok k)).
  Proof.
    induction tokens as [|token tokens IH]; intros s rs Hw E; cbn [hotp_history] in E.
    - injection E as <-. split; [reflexivity|]. split; intros; destruct i; discriminate.
    - cbn [length] in Hw. destruct s as [c t res o]. cbn [os_c] in *.
      destruct (validate_any c t o res token ltac:(lia)) as (s' & E1 & _ & A). rewrite E1 in E. cbn [obind] in E.
      assert (c <= os_c s' /\ os_c s' <= c + (r + 1) /\ (os_result s' = Success -> exists k, c <= k < os_c s' /\ token = tok k)) as (B1 & B2 & B3).
      { destruct A as [(R & k & K1 & K2 & K3)|(R & e & K1 & K2)].
        - rewrite N.mod_small in K3 by lia. rewrite N.mod_small in K2 by lia. repeat split; [lia|lia|]. intros _. exists (c + k). split; [lia|exact K2].
        - rewrite N.mod_small in K2 by lia. repeat split; [lia|lia|]. intro X. congruence. }
      destruct (hotp_history V tokens s') as [rs'|] eqn:E2; cbn [obind] in E; [|discriminate]. injection E as <-.
      destruct (IH s' rs' ltac:(lia) E2) as (L & P1 & P2). split; [cbn [length]; f_equal; exact L|]. split.
      + intros i res' c' Hi. destruct i as [|i]; cbn [nth_error] in *.
        * injection Hi as <- <-. split; [exact B1|]. intro R. destruct (B3 R) as (k & K1 & K2). exists k, token. split; [exact K1|split; [reflexivity|exact K2]].
        * destruct (P1 i res' c' Hi) as [Q1 Q2]. split; [lia|]. intro R. destruct (Q2 R) as (k & tk & K1 & K2 & K3). exists k, tk. split; [lia|split; assumption].
      + intros i j res1 c1 res2 c2 Hij Hi Hj. destruct j as [|j]; [lia|]. cbn [nth_error] in Hj.
        destruct i as [|i]; cbn [nth_error] in Hi.
        * injection Hi as <- <-. exact (P1 j res2 c2 Hj).
        * exact (P2 i j res1 c1 res2 c2 ltac:(lia) Hi Hj).
  Qed.
End Otp.

(* ---- TOTP *)
Section Totp.
  Variables (p : hash_ptrs) (H : list N -> list N) (B hs : nat) (K : list N) (d : N).
  Hypothesis I : implements p H B hs.
  Hypothesis Hhs : (19 <= hs)%nat.
  Hypothesis HK : text_ok K.
  Hypothesis Hd : d <= 9.
  Notation tok := (tok H B K d).
  Lemma one_try : forall token c res o, c < 2 ^ 64 -> exists s, kryptos_hotp (mkOtp ValidateToken K 1 d p) token (mkOS c 1 res o) = Done s /\
    os_out s = o /\ os_result s = (if eqb_list (tok c) token then Success else InvalidToken).
  Proof.
    intros token c res o Hc. unfold kryptos_hotp. rewrite (do_hotp_spec p H B hs K d 1 I Hhs HK Hd) by (right; reflexivity). cbn [os_t os_c os_out].
    change (1 =? 0) with false. cbn iota. destruct (eqb_list (tok c) token).
    - eexists. split; [reflexivity|]. split; reflexivity.
    - eexists. split; [reflexivity|]. split; reflexivity.
  Qed.
  (* the counters tried, in order *)
  Definition tries (t0 x now : N) : list N :=
    [(now + 2 ^ 64 - t0) mod 2 ^ 64 / x] ++
    (if 2 * x <? now then [(now - x + 2 ^ 64 - t0) mod 2 ^ 64 / x] else []) ++
    (if 3 * x <? now then [(now - 2 * x + t0) mod 2 ^ 64 / x] else []).
  Lemma totp_validate : forall token t0 x now, 0 < x -> 
    exists o, kryptos_totp (mkOtp ValidateToken K 1 d p) token t0 x now =
      Done (if existsb (fun c => eqb_list (tok c) token) (tries t0 x now) then Success else InvalidToken, o).
  Proof.
    intros token t0 x now Hx.
    assert (forall y, y mod 2 ^ 64 / x < 2 ^ 64) as Hc.
    { intro y. apply N.le_lt_trans with (y mod 2 ^ 64); [apply N.div_le_upper_bound; [lia|]|apply N.mod_lt; discriminate].
      set (z := y mod 2 ^ 64). nia. }
    unfold kryptos_totp, totp_loop. cbn [otp_action otp_key otp_digits otp_hash os_result os_out Nat.ltb Nat.leb].
    replace (x =? 0) with false by (symmetry; apply N.eqb_neq; lia).
    destruct (one_try token ((now + 2 ^ 64 - t0) mod 2 ^ 64 / x) Success None (Hc _)) as (s1 & E1 & O1 & R1). rewrite E1. cbn [obind].
    rewrite R1, O1. unfold tries. cbn [app existsb]. destruct (eqb_list (tok ((now + 2 ^ 64 - t0) mod 2 ^ 64 / x)) token); cbn [result_beq negb andb action_beq orb].
    { cbn [obind]. rewrite R1. eexists. reflexivity. }
    destruct (N.ltb_spec x now) as [L1|L1].
    2:{ replace (2 * x <? now) with false by (symmetry; apply N.ltb_ge; lia). replace (3 * x <? now) with false by (symmetry; apply N.ltb_ge; lia).
        cbn [obind app existsb]. rewrite R1. eexists. reflexivity. }
    destruct (N.ltb_spec x (now - x)) as [L2|L2].
    2:{ replace (2 * x <? now) with false by (symmetry; apply N.ltb_ge; lia). replace (3 * x <? now) with false by (symmetry; apply N.ltb_ge; lia).
        cbn [obind app existsb]. rewrite R1. eexists. reflexivity. }
    replace (2 * x <? now) with true by (symmetry; apply N.ltb_lt; lia).
    destruct (one_try token ((now - x + 2 ^ 64 - t0) mod 2 ^ 64 / x) InvalidToken None (Hc _)) as (s2 & E2 & O2 & R2). rewrite E2. cbn [obind].
    rewrite R2, O2. cbn [app existsb]. destruct (eqb_list (tok ((now - x + 2 ^ 64 - t0) mod 2 ^ 64 / x)) token); cbn [result_beq negb andb action_beq orb].
    { cbn [obind]. rewrite R2. eexists. reflexivity. }
    destruct (N.ltb_spec x (now - x - x)) as [L3|L3].
    2:{ replace (3 * x <? now) with false by (symmetry; apply N.ltb_ge; lia).
        cbn [obind app existsb]. rewrite R2. eexists. reflexivity. }
    replace (3 * x <? now) with true by (symmetry; apply N.ltb_lt; lia).
    replace (now - 2 * x) with (now - x - x) by lia.
    destruct (one_try token ((now - x - x + t0) mod 2 ^ 64 / x) InvalidToken None (Hc _)) as (s3 & E3 & O3 & R3). rewrite E3. cbn [obind].
    rewrite R3. cbn [app existsb]. destruct (eqb_list (tok ((now - x - x + t0) mod 2 ^ 64 / x)) token); cbn [result_beq negb andb action_beq orb].
    { cbn [obind]. rewrite R3. eexists. reflexivity. }
    destruct (x <? now - x - x - x); cbn [obind]; rewrite R3; eexists; reflexivity.
  Qed.
  Lemma totp_generate : forall token t0 x now, 0 < x -> t0 <= now -> now < 2 ^ 64 ->
    kryptos_totp (mkOtp GenerateToken K 1 d p) token t0 x now = Done (Success, Some (tok ((now - t0) / x))).
  Proof.
    intros token t0 x now Hx Ht Hn. unfold kryptos_totp, totp_loop. cbn [otp_action otp_key otp_digits otp_hash os_result os_out Nat.ltb Nat.leb].
    replace (x =? 0) with false by (symmetry; apply N.eqb_neq; lia).
    replace ((now + 2 ^ 64 - t0) mod 2 ^ 64) with (now - t0).
    2:{ replace (now + 2 ^ 64 - t0) with ((now - t0) + 1 * 2 ^ 64) by lia. rewrite N.mod_add by discriminate. symmetry. apply N.mod_small. lia. }
    unfold kryptos_hotp. rewrite (do_hotp_spec p H B hs K d 1 I Hhs HK Hd) by (left; reflexivity). reflexivity.
  Qed.
End Totp.

(* ---- the pipeline *)
Lemma pipeline_decrypt : forall p H B hs, implements p H B hs -> forall cipher K inp o r, text_ok K -> text_ok inp ->
  run_cipher_mac cipher (kryptos_hmac p) (mkMT Decrypt (Some K) (Some inp) o r) =
  if (Nat.ltb hs (length inp) && eqb_list (firstn hs inp) (HMAC H B K (skipn hs inp)))%bool
  then cipher (mkMT Decrypt (Some K) (Some (skipn hs inp)) o Success)
  else Done (mkMT Decrypt (Some K) (Some inp) o HMACError).
Proof.
  intros p H B hs I cipher K inp o r HK Hi. unfold run_cipher_mac. cbn [mt_action].
  rewrite (hmac_verifies p H B hs I K inp o r HK Hi). cbn [obind].
  destruct (Nat.ltb hs (length inp) && eqb_list (firstn hs inp) (HMAC H B K (skipn hs inp)))%bool; reflexivity.
Qed.
Lemma pipeline_encrypt : forall p H B hs, implements p H B hs -> forall cipher K inp ct r, text_ok K -> text_ok ct -> ct <> [] ->
  cipher (mkMT Encrypt (Some K) (Some inp) None r) = Done (mkMT Encrypt (Some K) (Some inp) (Some ct) Success) ->
  run_cipher_mac cipher (kryptos_hmac p) (mkMT Encrypt (Some K) (Some inp) None r) =
  Done (mkMT Encrypt (Some K) (Some inp) (Some (HMAC H B K ct ++ ct)) Success).
Proof.
  intros p H B hs I cipher K inp ct r HK Hc Hn E. unfold run_cipher_mac. cbn [mt_action]. rewrite E. cbn [obind mt_result result_beq].
  apply (hmac_generates p H B hs I); assumption.
Qed.

(* ---- HMAC over the standard hash functions *)
Lemma digest_is : forall h H m, hash_of h false m = returns (H m) -> digest h m = H m.
Proof. intros h H m E. unfold hash_of, returns in E. unfold digest, hash_fn. rewrite E. reflexivity. Qed.
Lemma impl64 : forall h H, In (h, H) hashes64 -> exists hs, implements (ptrs h 64 hs) (digest h) 64 hs /\ (0 < hs < 64)%nat.
Proof.
  intros h H A. cbn [In hashes64] in A.
  destruct A as [E|[E|[E|[E|[E|[E|[E|[]]]]]]]]; injection E as <- <-.
  - exists 16%nat. split; [exact i_md4|lia].
  - exists 16%nat. split; [exact i_md5|lia].
  - exists 16%nat. split; [exact i_rmd128|lia].
  - exists 20%nat. split; [exact i_rmd160|lia].
  - exists 20%nat. split; [exact i_sha1|lia].
  - exists 28%nat. split; [exact i_sha224|lia].
  - exists 32%nat. split; [exact i_sha256|lia].
Qed.
Lemma impl128 : forall h H, In (h, H) hashes128 -> exists hs, implements (ptrs h 128 hs) (digest h) 128 hs /\ (0 < hs < 112)%nat.
Proof.
  intros h H A. cbn [In hashes128] in A. destruct A as [E|[E|[]]]; injection E as <- <-.
  - exists 48%nat. split; [exact i_sha384|lia].
  - exists 64%nat. split; [exact i_sha512|lia].
Qed.
Lemma HMAC_ext : forall (D H : list N -> list N) B hs K x (good : nat -> Prop),
  (forall m, octets m -> N.of_nat (length m) < 2 ^ 61 -> length (D m) = hs /\ octets (D m)) -> (hs <= B <= 1024)%nat ->
  (forall m, octets m -> N.of_nat (length m) < 2 ^ 61 -> good (length m) -> D m = H m) ->
  text_ok K -> text_ok x -> ((length K <= B)%nat \/ good (length K)) -> good (B + length x)%nat -> good (B + hs)%nat -> HMAC D B K x = HMAC H B K x.
Proof.
  intros D H B hs K x good OD HB E [OK LK] [Ox Lx] GK Gx Go. unfold HMAC. cbv zeta.
  assert ((if (length K <=? B)%nat then K else D K) = (if (length K <=? B)%nat then K else H K)) as EK.
  { destruct (Nat.leb_spec (length K) B); [reflexivity|]. apply E; [exact OK|lia|destruct GK; [lia|assumption]]. }
  rewrite <- EK. set (K0 := if (length K <=? B)%nat then K else D K).
  assert (octets K0 /\ (length K0 <= B)%nat) as [OK0 LK0].
  { unfold K0. destruct (Nat.leb_spec (length K) B); [split; assumption|]. destruct (OD K OK ltac:(lia)) as [X Y]. split; [exact Y|lia]. }
  set (K1 := K0 ++ repeat 0 (B - length K0)).
  assert (octets K1 /\ length K1 = B) as [OK1 LK1].
  { unfold K1. split; [apply octets_app; [exact OK0|apply octets_zeros]|]. rewrite app_length, repeat_length. lia. }
  assert (forall c, c < 256 -> octets (xor_with c K1) /\ length (xor_with c K1) = B) as X.
  { intros c Hc. split; [apply octets_xor_with; assumption|]. unfold xor_with. rewrite map_length. exact LK1. }
  destruct (X 0x36 ltac:(reflexivity)) as [O1 L1]. destruct (X 0x5C ltac:(reflexivity)) as [O2 L2].
  assert (octets (xor_with 0x36 K1 ++ x)) as O3 by (apply octets_app; assumption).
  assert (N.of_nat (length (xor_with 0x36 K1 ++ x)) < 2 ^ 61) as L3 by (rewrite app_length, L1; lia).
  destruct (OD _ O3 L3) as [L4 O4].
  rewrite <- (E (xor_with 0x36 K1 ++ x)) by (try assumption; rewrite app_length, L1; exact Gx).
  apply E; [apply octets_app; assumption|rewrite app_length, L2, L4; lia|rewrite app_length, L2, L4; exact Go].
Qed.
Lemma hmac_standard_64 : forall h H, In (h, H) hashes64 -> forall K x, text_ok K -> text_ok x -> (length x mod 64 <> 0)%nat ->
  (length K <= 64 \/ length K mod 64 <> 0)%nat -> HMAC (digest h) 64 K x = HMAC H 64 K x.
Proof.
  intros h H A K x HK Hx Mx MK. destruct (impl64 h H A) as (hs & I & Hhs).
  apply (HMAC_ext (digest h) H 64 hs K x (fun n => (n mod 64 <> 0)%nat)); try assumption; [| lia | | |].
  - exact (H_ok (ptrs h 64 hs) (digest h) 64 hs I).
  - intros m Om Lm G. apply digest_is. apply (digest_64 h H A m); [split; assumption|right; exact G].
  - replace (64 + length x)%nat with (length x + 1 * 64)%nat by lia. rewrite Nat.mod_add by discriminate. exact Mx.
  - replace (64 + hs)%nat with (hs + 1 * 64)%nat by lia. rewrite Nat.mod_add by discriminate. rewrite Nat.mod_small; lia.
Qed.
Lemma hmac_standard_128 : forall h H, In (h, H) hashes128 -> forall K x, text_ok K -> text_ok x ->
  let good n := (n mod 128 <> 0 /\ (n mod 128 < 112 \/ 120 <= n mod 128))%nat in
  good (length x) -> (length K <= 128)%nat \/ good (length K) -> HMAC (digest h) 128 K x = HMAC H 128 K x.
Proof.
  intros h H A K x HK Hx good Mx MK. destruct (impl128 h H A) as (hs & I & Hhs).
  apply (HMAC_ext (digest h) H 128 hs K x good); try assumption; [| lia | | |].
  - exact (H_ok (ptrs h 128 hs) (digest h) 128 hs I).
  - intros m Om Lm [G1 G2]. apply digest_is. apply (digest_128 h H A m); [split; assumption|right; exact G1|exact G2].
  - unfold good. replace (128 + length x)%nat with (length x + 1 * 128)%nat by lia. rewrite Nat.mod_add by discriminate. exact Mx.
  - unfold good. replace (128 + hs)%nat with (hs + 1 * 128)%nat by lia. rewrite Nat.mod_add by discriminate. rewrite Nat.mod_small; lia.
Qed.

(* ---- forgeries *)
(* text' is computed from text alone *)
Definition extended (field : N -> list N) (text : list N) : list N :=
  text ++ [0x80] ++ repeat 0 (zeros_needed 64 8 (64 + length text)) ++ field (8 * N.of_nat (64 + length text)).
Lemma extended_padded : forall field pre text, length pre = 64%nat -> pre ++ extended field text = padded 64 8 0x80 field (pre ++ text).
Proof. intros field pre text L. unfold extended, padded. rewrite app_length, L, <- app_assoc. reflexivity. Qed.
Lemma hmac_forgery : forall h field block init out hs, made_of h 64 field block init out -> (forall t, length (field t) = 8%nat /\ octets (field t)) ->
  implements (ptrs h 64 hs) (digest h) 64 hs ->
  forall K text, text_ok K -> octets text -> N.of_nat (length text) + 192 < 2 ^ 60 -> (length text mod 64 <> 0)%nat ->
  HMAC (digest h) 64 K (extended field text) = HMAC (digest h) 64 K text.
Proof.
  intros h field block init out hs A F I K text [OK LK] Ot Lt M. unfold HMAC. cbv zeta. pose proof I as (_ & _ & Hhs & HB & _).
  set (K0 := if (length K <=? 64)%nat then K else digest h K).
  assert (octets K0 /\ (length K0 <= 64)%nat) as [OK0 LK0].
  { unfold K0. destruct (Nat.leb_spec (length K) 64); [split; assumption|]. destruct (H_ok _ _ _ _ I K OK ltac:(lia)) as [X Y]. split; [exact Y|lia]. }
  set (K1 := K0 ++ repeat 0 (64 - length K0)).
  assert (octets K1 /\ length K1 = 64%nat) as [OK1 LK1].
  { unfold K1. split; [apply octets_app; [exact OK0|apply octets_zeros]|]. rewrite app_length, repeat_length. lia. }
  assert (octets (xor_with 0x36 K1) /\ length (xor_with 0x36 K1) = 64%nat) as [O1 L1].
  { split; [apply octets_xor_with; [reflexivity|assumption]|]. unfold xor_with. rewrite map_length. exact LK1. }
  do 2 f_equal. rewrite (extended_padded field _ text L1).
  pose proof (collide h field block init out (xor_with 0x36 K1 ++ text) A F) as C.
  unfold digest, hash_fn. unfold hash_of in C. rewrite C; [reflexivity|apply octets_app; assumption|rewrite app_length, L1; lia|].
  right. rewrite app_length, L1. replace (64 + length text)%nat with (length text + 1 * 64)%nat by lia. rewrite Nat.mod_add by discriminate. exact M.
Qed.
Lemma extended_differs : forall field text, extended field text <> text.
Proof. intros field text E. apply (f_equal (@length N)) in E. unfold extended in E. rewrite app_length in E. cbn [app length] in E. lia. Qed.
Lemma extended_text : forall field text, (forall t, length (field t) = 8%nat /\ octets (field t)) -> octets text -> N.of_nat (length text) + 192 < 2 ^ 60 -> text_ok (extended field text).
Proof.
  intros field text F O L. split.
  - unfold extended. repeat apply octets_app; [exact O|constructor; [reflexivity|constructor]|apply octets_zeros|apply F].
  - unfold extended. rewrite !app_length, repeat_length. destruct (F (8 * N.of_nat (64 + length text))) as [-> _].
    assert (zeros_needed 64 8 (64 + length text) < 64)%nat by (apply Nat.mod_upper_bound; discriminate). cbn [length]. lia.
Qed.
Lemma forged : forall h field block init out hs, made_of h 64 field block init out -> (forall t, length (field t) = 8%nat /\ octets (field t)) ->
  implements (ptrs h 64 hs) (digest h) 64 hs ->
  forall tag text, octets (tag ++ text) -> N.of_nat (length text) + 256 < 2 ^ 60 -> (length text mod 64 <> 0)%nat -> length tag = hs ->
  forall K o r, text_ok K ->
  kryptos_hmac (ptrs h 64 hs) (mkMT Decrypt (Some K) (Some (tag ++ text)) o r) = Done (mkMT Decrypt (Some K) (Some text) o Success) ->
  kryptos_hmac (ptrs h 64 hs) (mkMT Decrypt (Some K) (Some (tag ++ extended field text)) o r) = Done (mkMT Decrypt (Some K) (Some (extended field text)) o Success).
Proof.
  intros h field block init out hs A F I tag text O L M Lt K o r HK. pose proof I as (_ & _ & Hhs & HB & _).
  apply Forall_app in O. destruct O as [Ot Ox]. destruct (extended_text field text F Ox ltac:(lia)) as [Oe Le].
  assert (N.of_nat (length (extended field text)) < 2 ^ 60 - 64) as Le'.
  { unfold extended. rewrite !app_length, repeat_length. destruct (F (8 * N.of_nat (64 + length text))) as [-> _].
    assert (zeros_needed 64 8 (64 + length text) < 64)%nat by (apply Nat.mod_upper_bound; discriminate). cbn [length]. lia. }
  assert (text_ok (tag ++ text)) as T1 by (split; [apply octets_app; assumption|rewrite app_length; lia]).
  assert (text_ok (tag ++ extended field text)) as T2 by (split; [apply octets_app; assumption|rewrite app_length; lia]).
  rewrite (hmac_verifies _ _ _ _ I K (tag ++ text) o r HK T1), (hmac_verifies _ _ _ _ I K (tag ++ extended field text) o r HK T2).
  rewrite !(firstn_exact N tag _ hs Lt), !(skipn_exact N tag _ hs Lt). rewrite !app_length, Lt.
  rewrite (hmac_forgery h field block init out hs A F I K text HK Ox ltac:(lia) M).
  replace (Nat.ltb hs (hs + length (extended field text))) with true by (symmetry; apply Nat.ltb_lt; unfold extended; rewrite !app_length; cbn [length]; lia).
  destruct (Nat.ltb hs (hs + length text) && eqb_list tag (HMAC (digest h) 64 K text))%bool eqn:E.
  - intros _. apply andb_true_iff in E. destruct E as [_ ->]. reflexivity.
  - intro X. discriminate.
Qed.
