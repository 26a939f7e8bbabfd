(* C36: stream cipher round trips. C37: ChaCha20 is RFC 8439. C38: Salsa20. C94: ARC4 is RC4, RABBIT is RFC 4503.
   C95: what the stream ciphers do to the task and to unusual input. *)
From Verif Require Import Words EncSpec TaskModel CipherBase CipherLib KeyProofs ModeSpec ModeProofs4 StreamModel StreamSpec StreamProofs RabbitProofs SealProofs.
Open Scope N_scope.

(* what a run that ends well returns: the output bytes and their number; the counter only matters for ChaCha20 *)
Definition gives (r : outcome stream_run) (out : list N) (iv : iv_after) : Prop :=
  exists c, r = Done (mkRun Success (Some out) (N.of_nat (length out)) iv c).
(* a nonce of n bytes *)
Definition nonce (n : nat) (v : list N) : Prop := octets v /\ length v = n.

Lemma buf_all : forall l, buf (Some l) (N.of_nat (length l)) = Done l.
Proof. intro l. unfold buf. rewrite N.ltb_irrefl, Nat2N.id, firstn_all. reflexivity. Qed.
Lemma buf_key : forall l n, length l = n -> buf (Some l) (N.of_nat n) = Done l.
Proof. intros l n <-. apply buf_all. Qed.
Lemma nonempty_size : forall l : list N, l <> [] -> N.of_nat (length l) <> 0.
Proof. intros [|x l] H; [congruence|]. cbn [length]. lia. Qed.
Lemma check_ok : forall pem id a key iv inp, (id = ARC4 \/ id = SEAL \/ id = SALSA20 \/ id = CHACHA20) ->
  key <> [] -> inp <> [] -> (forall v, iv = Some v -> N.of_nat (length v) = iv_len id) ->
  task_check pem (stream_task id a key iv inp) = Success.
Proof.
  intros pem id a key iv inp Hid Hk Hi Hv. apply stream_check_iff; [exact Hid|].
  unfold valid_stream_task, stream_task. cbn [t_key t_key_size t_iv t_iv_size t_in t_in_size t_cipher].
  split; [eauto|]. split; [apply nonempty_size; exact Hk|]. split; [|split; [eauto|apply nonempty_size; exact Hi]].
  intros _. destruct iv as [v|]; [right|left; auto]. split; [eauto|]. apply Hv. reflexivity.
Qed.

Lemma arc4_run : forall pem a key inp, key <> [] -> inp <> [] ->
  exists c, gives (arc4_cipher pem (stream_task ARC4 a key None inp)) c IvKept /\ xored_with (rc4_key_stream key) inp c.
Proof.
  intros pem a key inp Hk Hi. pose proof (arc4_stream key inp) as X.
  exists (arc4_loop (arc4_key_setup key) inp). split; [|exact X].
  exists 0. unfold arc4_cipher. rewrite check_ok by (auto; discriminate). unfold stream_task. cbn [t_key t_key_size t_in t_in_size].
  rewrite !buf_all. cbn [obind]. rewrite (proj1 X). reflexivity.
Qed.
Lemma xored_not_nil : forall ks a b, xored_with ks a b -> a <> [] -> b <> [].
Proof. intros ks a b [L _] H E. subst b. destruct a; [congruence|discriminate L]. Qed.

(* ------------------------------------------------------------------ C94 *)
(* ARC4 is RC4, encrypting and decrypting, for every key and input *)
Theorem C94_arc4_is_rc4 : forall pem a key inp, key <> [] -> inp <> [] ->
  exists c, gives (arc4_cipher pem (stream_task ARC4 a key None inp)) c IvKept /\ xored_with (rc4_key_stream key) inp c.
Proof. exact arc4_run. Qed.
Print Assumptions C94_arc4_is_rc4.
(* RABBIT is the cipher of RFC 4503, with and without an initialisation vector, whatever its local buffer held
   before *)
Theorem C94_rabbit_is_rfc4503 : forall junk a key iv inp, octets key -> length key = 16%nat -> (forall v, iv = Some v -> nonce 8 v) ->
  octets inp -> octets junk -> length junk = 16%nat ->
  exists c, gives (rabbit_cipher junk (stream_task RABBIT a key iv inp)) c IvKept /\ xored_with (rabbit_key_stream key iv) inp c.
Proof.
  intros junk a key iv inp Hk Lk Hv Hi Hj Lj. pose proof (rabbit_stream junk key iv inp Hk Lk Hv Hi Hj Lj) as X.
  eexists. split; [|exact X]. exists 0. unfold rabbit_cipher, stream_task. cbn [t_key t_key_size t_in t_in_size t_iv].
  rewrite !buf_all. cbn [obind]. destruct iv as [v|].
  - destruct (Hv v eq_refl) as [Ov Lv]. assert (buf (Some v) 8 = Done v) as ->.
    { pose proof (buf_all v) as B. rewrite Lv in B. exact B. }
    cbn [obind]. rewrite (proj1 X). reflexivity.
  - cbn [obind]. rewrite (proj1 X). reflexivity.
Qed.
Print Assumptions C94_rabbit_is_rfc4503.
Example C94_case :
  xored_with (rc4_key_stream [75; 101; 121]) [80; 108; 97; 105; 110; 116; 101; 120; 116]
    [0xBB; 0xF3; 0x16; 0xE8; 0xD9; 0x40; 0xAF; 0x0A; 0xD3].
Proof.
  destruct (arc4_run (fun _ _ => false) Encrypt [75; 101; 121] [80; 108; 97; 105; 110; 116; 101; 120; 116]) as (c & (k & E) & X); [discriminate|discriminate|].
  assert (arc4_cipher (fun _ _ => false) (stream_task ARC4 Encrypt [75; 101; 121] None [80; 108; 97; 105; 110; 116; 101; 120; 116]) =
    Done (mkRun Success (Some [0xBB; 0xF3; 0x16; 0xE8; 0xD9; 0x40; 0xAF; 0x0A; 0xD3]) 9 IvKept 0)) as V by (vm_compute; reflexivity).
  rewrite V in E. assert (c = [0xBB; 0xF3; 0x16; 0xE8; 0xD9; 0x40; 0xAF; 0x0A; 0xD3]) as <- by congruence. exact X.
Qed.

(* ------------------------------------------------------------------ C37 *)
(* with a nonce from the caller: ciphertext of RFC 8439 and the next counter *)
Theorem C37_chacha20_is_rfc8439 : forall pem rnd a key iv counter inp,
  octets key -> length key = 32%nat -> nonce 12 iv -> counter < 2 ^ 32 -> inp <> [] ->
  exists c, chacha20_cipher pem rnd (Some counter) (stream_task CHACHA20 a key (Some iv) inp) =
    Done (mkRun Success (Some c) (N.of_nat (length c)) IvKept ((counter + N.of_nat ((length inp + 63) / 64)) mod 2 ^ 32)) /\
    xored_with (chacha20_key_stream key iv counter) inp c.
Proof.
  intros pem rnd a key iv counter inp Hk Lk [Ov Lv] Hc Hi.
  destruct (chacha20_stream key iv counter inp Hk Ov Lk Lv Hc) as [X E].
  unfold chacha20_cipher, nonce_frame.
  rewrite check_ok; [|auto|destruct key; discriminate|exact Hi|intros v Ev; injection Ev as <-; rewrite Lv; reflexivity].
  unfold stream_task. cbn [t_key t_key_size t_in t_in_size t_iv].
  rewrite Lk. change (N.of_nat 32 =? 32) with true. cbn [negb]. rewrite ?(buf_key key _ Lk), !buf_all. cbn [obind].
  pose proof (buf_all iv) as B. rewrite Lv in B. rewrite B. cbn [obind].
  destruct (stream_loop (length inp) (chacha20_feed key iv) (fun l => add32 l 1) counter inp) as [out l'] eqn:ES.
  cbn [fst snd] in X, E. rewrite E. exists out. split; [rewrite (proj1 X); reflexivity|exact X].
Qed.
Print Assumptions C37_chacha20_is_rfc8439.
(* without a nonce and without a counter: Encrypt puts the fresh nonce in front, Decrypt takes it from there *)
Theorem C37_chacha20_fresh_nonce : forall pem rnd key inp,
  octets key -> length key = 32%nat -> nonce 12 rnd -> inp <> [] ->
  exists c, gives (chacha20_cipher pem rnd None (stream_task CHACHA20 Encrypt key None inp)) (rnd ++ c) IvFreed /\
    xored_with (chacha20_key_stream key rnd 0) inp c.
Proof.
  intros pem rnd key inp Hk Lk [Ov Lv] Hi.
  destruct (chacha20_stream key rnd 0 inp Hk Ov Lk Lv) as [X E]; [reflexivity|].
  unfold chacha20_cipher, nonce_frame. rewrite check_ok; [|auto|destruct key; discriminate|exact Hi|discriminate].
  unfold stream_task. cbn [t_key t_key_size t_in t_in_size t_iv t_iv_size t_action].
  rewrite Lk. change (N.of_nat 32 =? 32) with true. change (0 =? 0) with true. cbn [negb action_beq]. rewrite ?(buf_key key _ Lk), !buf_all. cbn [obind].
  destruct (stream_loop (length inp) (chacha20_feed key rnd) (fun l => add32 l 1) 0 inp) as [out l'] eqn:ES.
  cbn [fst snd] in X, E. exists out. split; [|exact X]. exists l'. rewrite app_length, Lv, (proj1 X), Nat2N.inj_add.
  rewrite N.add_comm. reflexivity.
Qed.
Print Assumptions C37_chacha20_fresh_nonce.
(* RFC 8439, 2.3.2: first byte of the block *)
Example C37_case : chacha20_key_stream (range 32) [0;0;0;9;0;0;0;0x4a;0;0;0;0] 1 0 = 0x10.
Proof. vm_compute. reflexivity. Qed.

(* ------------------------------------------------------------------ C38 *)
(* Salsa20 with 32-byte keys *)
Theorem C38_salsa20_is_salsa20 : forall pem rnd a key iv inp,
  octets key -> length key = 32%nat -> nonce 8 iv -> inp <> [] -> N.of_nat (length inp) < 2 ^ 64 ->
  exists c, gives (salsa20_cipher pem rnd (stream_task SALSA20 a key (Some iv) inp)) c IvKept /\
    xored_with (salsa20_key_stream key iv) inp c.
Proof.
  intros pem rnd a key iv inp Hk Lk [Ov Lv] Hi Hlen.
  pose proof (salsa20_stream key iv inp Hk Ov (or_introl Lk) Lv Hlen) as X.
  unfold salsa20_cipher, nonce_frame.
  rewrite check_ok; [|auto|destruct key; discriminate|exact Hi|intros v Ev; injection Ev as <-; rewrite Lv; reflexivity].
  unfold stream_task. cbn [t_key t_key_size t_in t_in_size t_iv].
  rewrite Lk. change (N.of_nat 32 =? 32) with true. cbn [negb orb]. rewrite ?(buf_key key _ Lk), !buf_all. cbn [obind].
  pose proof (buf_all iv) as B. rewrite Lv in B. rewrite B. cbn [obind].
  destruct (stream_loop (length inp) (salsa20_feed key iv) (fun l => addw 64 l 1) 0 inp) as [out l'] eqn:ES.
  cbn [fst] in X. exists out. split; [exists l'; rewrite (proj1 X); reflexivity|].
  eapply xored_ext; [|exact X]. intros i _. unfold sigma_stream, salsa20_key_stream, salsa20_expand. rewrite Lk. reflexivity.
Qed.
Print Assumptions C38_salsa20_is_salsa20.
(* A 16-byte key k gives the same output as the 32-byte key k k, for every input ... *)
Theorem C38_short_key_is_doubled_key : forall pem rnd a key iv inp,
  octets key -> length key = 16%nat -> nonce 8 iv -> inp <> [] -> N.of_nat (length inp) < 2 ^ 64 ->
  exists c, gives (salsa20_cipher pem rnd (stream_task SALSA20 a key (Some iv) inp)) c IvKept /\
    xored_with (salsa20_key_stream (key ++ key) iv) inp c.
Proof.
  intros pem rnd a key iv inp Hk Lk [Ov Lv] Hi Hlen.
  pose proof (salsa20_stream key iv inp Hk Ov (or_intror Lk) Lv Hlen) as X.
  unfold salsa20_cipher, nonce_frame.
  rewrite check_ok; [|auto|destruct key; discriminate|exact Hi|intros v Ev; injection Ev as <-; rewrite Lv; reflexivity].
  unfold stream_task. cbn [t_key t_key_size t_in t_in_size t_iv].
  rewrite Lk. change (N.of_nat 16 =? 32) with false. change (N.of_nat 16 =? 16) with true. cbn [negb orb]. rewrite ?(buf_key key _ Lk), !buf_all. cbn [obind].
  pose proof (buf_all iv) as B. rewrite Lv in B. rewrite B. cbn [obind].
  destruct (stream_loop (length inp) (salsa20_feed key iv) (fun l => addw 64 l 1) 0 inp) as [out l'] eqn:ES.
  cbn [fst] in X. exists out. split; [exists l'; rewrite (proj1 X); reflexivity|].
  eapply xored_ext; [|exact X]. intros i _. unfold sigma_stream, salsa20_key_stream, salsa20_expand. rewrite app_length, Lk.
  change ((16 + 16 =? 32)%nat) with true. change ((16 =? 16)%nat) with true. cbn [negb].
  assert (part key 0 16 = key) as E0 by (unfold part; apply firstn_all2; cbn [skipn]; lia).
  assert (part (key ++ key) 0 16 = key) as E1.
  { unfold part. change (skipn 0 (key ++ key)) with (key ++ key). rewrite firstn_app, Lk. rewrite firstn_all2 by lia.
    change (16 - 16)%nat with 0%nat. cbn [firstn]. apply app_nil_r. }
  assert (part (key ++ key) 16 16 = key) as E2.
  { unfold part. rewrite skipn_app, Lk, skipn_all2 by lia. change (16 - 16)%nat with 0%nat. apply firstn_all2. cbn [skipn app]. lia. }
  rewrite E0, E1, E2. reflexivity.
Qed.
Print Assumptions C38_short_key_is_doubled_key.
(* ... where the specification uses different constants: this accepted 16-byte key does not give Salsa20 *)
Theorem C38_short_key_refuted : exists key iv inp c, octets key /\ length key = 16%nat /\ nonce 8 iv /\
  gives (salsa20_cipher (fun _ _ => false) [] (stream_task SALSA20 Encrypt key (Some iv) inp)) c IvKept /\
  ~ xored_with (salsa20_key_stream key iv) inp c.
Proof.
  assert (nth 0 (firstn 1 (salsa20_feed (range 16) (range 8) 0)) 0 <> salsa20_key_stream (range 16) (range 8) 0) as D by (vm_compute; discriminate).
  assert (octets (range 16)) as Hk by (repeat constructor).
  assert (nonce 8 (range 8)) as Hv by (split; [repeat constructor|reflexivity]).
  destruct (C38_short_key_is_doubled_key (fun _ _ => false) [] Encrypt (range 16) (range 8) [0] Hk eq_refl Hv ltac:(discriminate) eq_refl) as (c & G & X).
  exists (range 16), (range 8), [0], c. split; [exact Hk|]. split; [reflexivity|]. split; [exact Hv|]. split; [exact G|].
  intro Y. apply D. pose proof (proj2 X 0%nat ltac:(cbn; lia)) as X0. pose proof (proj2 Y 0%nat ltac:(cbn; lia)) as Y0.
  change (nth 0 [0] 0) with 0 in *. rewrite N.lxor_0_l in X0, Y0. rewrite <- Y0, X0. vm_compute. reflexivity.
Qed.
Print Assumptions C38_short_key_refuted.

(* ------------------------------------------------------------------ C36 *)
(* Decrypting what was encrypted gives the message back, with the same length, for the five stream ciphers *)
Theorem C36_arc4_round_trip : forall pem key inp, key <> [] -> inp <> [] ->
  exists c, gives (arc4_cipher pem (stream_task ARC4 Encrypt key None inp)) c IvKept /\ length c = length inp /\
    gives (arc4_cipher pem (stream_task ARC4 Decrypt key None c)) inp IvKept.
Proof.
  intros pem key inp Hk Hi. destruct (arc4_run pem Encrypt key inp Hk Hi) as (c & G & X).
  destruct (arc4_run pem Decrypt key c Hk (xored_not_nil _ _ _ X Hi)) as (d & G' & X').
  exists c. split; [exact G|]. split; [exact (proj1 X)|]. rewrite <- (xored_twice _ _ _ _ X X'). exact G'.
Qed.
Print Assumptions C36_arc4_round_trip.
Lemma xored_octets : forall ks a b, (forall i, ks i < 256) -> octets a -> xored_with ks a b -> octets b.
Proof.
  intros ks a b Hk Ha [L X]. apply Forall_forall. intros x Hx. destruct (In_nth b x 0 Hx) as (i & Hi & <-).
  rewrite X by (rewrite <- L; exact Hi). change 256 with (2 ^ 8). apply lxor_lt; [|apply Hk].
  apply (proj1 (Forall_forall _ _) Ha), nth_In. rewrite <- L. exact Hi.
Qed.
Lemma rabbit_byte : forall key iv i, rabbit_key_stream key iv i < 256.
Proof.
  intros. unfold rabbit_key_stream, bits. cbv zeta.
  replace (8 * N.of_nat (i mod 2) + 7 - 8 * N.of_nat (i mod 2) + 1) with 8 by lia. apply N.mod_lt. discriminate.
Qed.
Theorem C36_rabbit_round_trip : forall junk junk' key iv inp, octets key -> length key = 16%nat -> (forall v, iv = Some v -> nonce 8 v) ->
  octets inp -> nonce 16 junk -> nonce 16 junk' ->
  exists c, gives (rabbit_cipher junk (stream_task RABBIT Encrypt key iv inp)) c IvKept /\ length c = length inp /\
    gives (rabbit_cipher junk' (stream_task RABBIT Decrypt key iv c)) inp IvKept.
Proof.
  intros junk junk' key iv inp Hk Lk Hv Hi [Oj Lj] [Oj' Lj'].
  destruct (C94_rabbit_is_rfc4503 junk Encrypt key iv inp Hk Lk Hv Hi Oj Lj) as (c & G & X).
  exists c. split; [exact G|]. split; [exact (proj1 X)|].
  destruct (C94_rabbit_is_rfc4503 junk' Decrypt key iv c Hk Lk Hv (xored_octets _ _ _ (rabbit_byte key iv) Hi X) Oj' Lj') as (d & G' & X').
  rewrite <- (xored_twice _ _ _ _ X X'). exact G'.
Qed.
Print Assumptions C36_rabbit_round_trip.
(* SEAL, both versions, any block length L and any n; the key may have any length *)
Theorem C36_seal_round_trip : forall pem v L n key inp, key <> [] -> inp <> [] -> v = Seal20 \/ v = Seal30 -> 1 <= L <= 0xffff ->
  exists c, gives (seal_cipher pem (Some v) (Some L) n (stream_task SEAL Encrypt key None inp)) c IvKept /\ length c = length inp /\
    gives (seal_cipher pem (Some v) (Some L) n (stream_task SEAL Decrypt key None c)) inp IvKept.
Proof.
  intros pem v L n key inp Hk Hi Hv HL.
  assert (forall a x, x <> [] -> exists c, gives (seal_cipher pem (Some v) (Some L) n (stream_task SEAL a key None x)) c IvKept /\
    xored_with (fun i => nth (i mod (4 * N.to_nat L)) (store_be 4 (seal_keystream v key ((match n with None => 0 | Some n => n mod 2 ^ 32 end + N.of_nat (i / (4 * N.to_nat L))) mod 2 ^ 32) L)) 0) x c) as R.
  { intros a x Hx. unfold seal_cipher. rewrite check_ok by (auto; discriminate).
    unfold stream_task. cbn [t_key t_key_size t_in t_in_size]. rewrite !buf_all.
    destruct (N.ltb_spec L 1); [lia|]. destruct (N.ltb_spec 0xffff L); [lia|]. cbn [orb obind].
    assert (word match n with None => 0 | Some n => n mod 2 ^ 32 end) as Wn by (destruct n; [apply N.mod_lt; discriminate|reflexivity]).
    pose proof (seal_loop_xor (fun m => seal_keystream v key m L) L ltac:(lia) (fun m => seal_keystream_length v key m L) (length x) _ x Wn ltac:(lia)) as X.
    eexists. split; [|exact X]. exists 0. rewrite (proj1 X). destruct Hv as [-> | ->]; reflexivity. }
  destruct (R Encrypt inp Hi) as (c & G & X). destruct (R Decrypt c (xored_not_nil _ _ _ X Hi)) as (d & G' & X').
  exists c. split; [exact G|]. split; [exact (proj1 X)|]. rewrite <- (xored_twice _ _ _ _ X X'). exact G'.
Qed.
Print Assumptions C36_seal_round_trip.
(* ChaCha20 and Salsa20 with a nonce of the caller *)
Theorem C36_chacha20_round_trip : forall pem rnd rnd' key iv counter inp,
  octets key -> length key = 32%nat -> nonce 12 iv -> counter < 2 ^ 32 -> inp <> [] ->
  exists c, gives (chacha20_cipher pem rnd (Some counter) (stream_task CHACHA20 Encrypt key (Some iv) inp)) c IvKept /\ length c = length inp /\
    gives (chacha20_cipher pem rnd' (Some counter) (stream_task CHACHA20 Decrypt key (Some iv) c)) inp IvKept.
Proof.
  intros pem rnd rnd' key iv counter inp Hk Lk Hv Hc Hi.
  destruct (C37_chacha20_is_rfc8439 pem rnd Encrypt key iv counter inp Hk Lk Hv Hc Hi) as (c & G & X).
  destruct (C37_chacha20_is_rfc8439 pem rnd' Decrypt key iv counter c Hk Lk Hv Hc (xored_not_nil _ _ _ X Hi)) as (d & G' & X').
  exists c. split; [eexists; exact G|]. split; [exact (proj1 X)|]. rewrite <- (xored_twice _ _ _ _ X X'). eexists; exact G'.
Qed.
Print Assumptions C36_chacha20_round_trip.
Theorem C36_salsa20_round_trip : forall pem rnd rnd' key iv inp,
  octets key -> (length key = 16 \/ length key = 32)%nat -> nonce 8 iv -> inp <> [] -> N.of_nat (length inp) < 2 ^ 64 ->
  exists c, gives (salsa20_cipher pem rnd (stream_task SALSA20 Encrypt key (Some iv) inp)) c IvKept /\ length c = length inp /\
    gives (salsa20_cipher pem rnd' (stream_task SALSA20 Decrypt key (Some iv) c)) inp IvKept.
Proof.
  intros pem rnd rnd' key iv inp Hk Lk Hv Hi Hlen.
  assert (exists ks, forall r a x, x <> [] -> N.of_nat (length x) < 2 ^ 64 ->
    exists c, gives (salsa20_cipher pem r (stream_task SALSA20 a key (Some iv) x)) c IvKept /\ xored_with ks x c) as [ks R].
  { destruct Lk as [Lk|Lk].
    - exists (salsa20_key_stream (key ++ key) iv). intros. apply C38_short_key_is_doubled_key; assumption.
    - exists (salsa20_key_stream key iv). intros. apply C38_salsa20_is_salsa20; assumption. }
  destruct (R rnd Encrypt inp Hi Hlen) as (c & G & X).
  destruct (R rnd' Decrypt c (xored_not_nil _ _ _ X Hi)) as (d & G' & X'); [rewrite (proj1 X); exact Hlen|].
  exists c. split; [exact G|]. split; [exact (proj1 X)|]. rewrite <- (xored_twice _ _ _ _ X X'). exact G'.
Qed.
Print Assumptions C36_salsa20_round_trip.
(* and with a fresh nonce: the output is the nonce and the ciphertext, decrypting it without a nonce works; the
   random bytes of the second call play no role *)
Theorem C36_chacha20_fresh_round_trip : forall pem rnd rnd' key inp,
  octets key -> length key = 32%nat -> nonce 12 rnd -> octets inp -> inp <> [] ->
  exists c, gives (chacha20_cipher pem rnd None (stream_task CHACHA20 Encrypt key None inp)) (rnd ++ c) IvFreed /\
    gives (chacha20_cipher pem rnd' None (stream_task CHACHA20 Decrypt key None (rnd ++ c))) inp IvNull.
Proof.
  intros pem rnd rnd' key inp Hk Lk Hv Oi Hi.
  destruct (C37_chacha20_fresh_nonce pem rnd key inp Hk Lk Hv Hi) as (c & G & X). exists c. split; [exact G|]. destruct Hv as [Ov Lv].
  destruct (chacha20_stream key rnd 0 c Hk Ov Lk Lv) as [X' _]; [reflexivity|].
  unfold chacha20_cipher, nonce_frame. rewrite check_ok; [|auto|destruct key; discriminate|destruct rnd; discriminate|discriminate].
  unfold stream_task. cbn [t_key t_key_size t_in t_in_size t_iv t_iv_size t_action].
  rewrite Lk. change (N.of_nat 32 =? 32) with true. change (0 =? 0) with true. cbn [negb action_beq]. rewrite ?(buf_key key _ Lk), !buf_all. cbn [obind].
  destruct (N.ltb_spec (N.of_nat (length (rnd ++ c))) (N.of_nat 12)) as [Hs|_]; [rewrite app_length in Hs; lia|].
  assert (firstn 12 (rnd ++ c) = rnd) as ->.
  { rewrite firstn_app, Lv, firstn_all2 by lia. change (12 - 12)%nat with 0%nat. cbn [firstn]. apply app_nil_r. }
  assert (skipn 12 (rnd ++ c) = c) as ->.
  { rewrite skipn_app, Lv, skipn_all2 by lia. reflexivity. }
  destruct (stream_loop (length c) (chacha20_feed key rnd) (fun l => add32 l 1) 0 c) as [out l'] eqn:ES. cbn [fst] in X'.
  rewrite (xored_twice _ _ _ _ X X'). exists l'. rewrite app_length, Lv, Nat2N.inj_add, <- (proj1 X).
  do 2 f_equal. lia.
Qed.
Print Assumptions C36_chacha20_fresh_round_trip.
(* the hypotheses are met by, for instance, *)
Example C36_case : octets (range 32) /\ length (range 32) = 32%nat /\ nonce 12 (range 12) /\ nonce 8 (range 8) /\
  octets [1; 2; 3] /\ [1; 2; 3] <> [].
Proof. repeat split; try (repeat constructor); discriminate. Qed.

(* ------------------------------------------------------------------ C95 *)
(* After an encryption with a fresh nonce the task is left pointing to the freed nonce; using the same task again
   reads freed memory. The caller has to reset the field. *)
Theorem C95_nonce_pointer_valid_refuted : forall pem rnd key inp, octets key -> length key = 32%nat -> nonce 12 rnd -> inp <> [] ->
  exists r, chacha20_cipher pem rnd None (stream_task CHACHA20 Encrypt key None inp) = Done r /\ s_result r = Success /\ s_iv r = IvFreed.
Proof.
  intros pem rnd key inp Hk Lk Hv Hi. destruct (C37_chacha20_fresh_nonce pem rnd key inp Hk Lk Hv Hi) as (c & (l & G) & _).
  eexists. split; [exact G|]. split; reflexivity.
Qed.
Print Assumptions C95_nonce_pointer_valid_refuted.
(* Ciphertexts shorter than the nonce are not rejected: the input is read past its end *)
Theorem C95_short_ciphertext_refuted : forall pem rnd key inp, length key = 32%nat -> inp <> [] ->
  ((length inp < 12)%nat -> chacha20_cipher pem rnd None (stream_task CHACHA20 Decrypt key None inp) = UB) /\
  ((length inp < 8)%nat -> salsa20_cipher pem rnd (stream_task SALSA20 Decrypt key None inp) = UB).
Proof.
  intros pem rnd key inp Lk Hi. split; intro Hs.
  - unfold chacha20_cipher, nonce_frame. rewrite check_ok; [|auto|destruct key; discriminate|exact Hi|discriminate].
    unfold stream_task. cbn [t_key t_key_size t_in t_in_size t_iv t_iv_size t_action].
    rewrite Lk. change (N.of_nat 32 =? 32) with true. change (0 =? 0) with true. cbn [negb action_beq]. rewrite ?(buf_key key _ Lk), !buf_all. cbn [obind].
    destruct (N.ltb_spec (N.of_nat (length inp)) (N.of_nat 12)); [reflexivity|lia].
  - unfold salsa20_cipher, nonce_frame. rewrite check_ok; [|auto|destruct key; discriminate|exact Hi|discriminate].
    unfold stream_task. cbn [t_key t_key_size t_in t_in_size t_iv t_iv_size t_action].
    rewrite Lk. change (N.of_nat 32 =? 32) with true. change (0 =? 0) with true. cbn [negb orb action_beq]. rewrite ?(buf_key key _ Lk), !buf_all. cbn [obind].
    destruct (N.ltb_spec (N.of_nat (length inp)) (N.of_nat 8)); [reflexivity|lia].
Qed.
Print Assumptions C95_short_ciphertext_refuted.
(* A SEAL version outside the enumeration is not rejected *)
Theorem C95_seal_version_refuted : forall pem L n key inp, key <> [] -> inp <> [] -> 1 <= L <= 0xffff ->
  seal_cipher pem (Some SealOther) (Some L) n (stream_task SEAL Encrypt key None inp) = UB.
Proof.
  intros pem L n key inp Hk Hi HL. unfold seal_cipher. rewrite check_ok by (auto; discriminate).
  destruct (N.ltb_spec L 1); [lia|]. destruct (N.ltb_spec 0xffff L); [lia|]. reflexivity.
Qed.
Print Assumptions C95_seal_version_refuted.
(* SEAL: the first four bytes of a 24-byte key have no effect *)
Theorem C95_seal_long_key_refuted : exists k1 k2, k1 <> k2 /\ length k1 = 24%nat /\ length k2 = 24%nat /\
  forall v n w, seal_keystream v k1 n w = seal_keystream v k2 n w.
Proof.
  exists (range 24), (repeat 7 4 ++ skipn 4 (range 24)). split; [discriminate|]. split; [reflexivity|]. split; [reflexivity|].
  assert (seal_ld_userkey (range 24) = seal_ld_userkey (repeat 7 4 ++ skipn 4 (range 24))) as E by (vm_compute; reflexivity).
  intros. unfold seal_keystream. rewrite E. reflexivity.
Qed.
Print Assumptions C95_seal_long_key_refuted.
(* RABBIT: of a 17-byte key the first byte has no effect; no size is rejected *)
Theorem C95_rabbit_key_size_refuted : exists k1 k2, k1 <> k2 /\ length k1 = 17%nat /\ length k2 = 17%nat /\
  forall iv, rabbit_key_setup k1 iv = rabbit_key_setup k2 iv.
Proof.
  assert (rabbit_ld_user_key (range 17) = rabbit_ld_user_key (7 :: skipn 1 (range 17))) as E by (vm_compute; reflexivity).
  exists (range 17), (7 :: skipn 1 (range 17)). split; [discriminate|]. split; [reflexivity|]. split; [reflexivity|].
  intro iv. unfold rabbit_key_setup. rewrite E. reflexivity.
Qed.
Print Assumptions C95_rabbit_key_size_refuted.
(* RABBIT squares a 32-bit number in a signed 64-bit type: already for the all-zero key the first iteration of the
   key setup overflows it, which C does not define *)
Theorem C95_rabbit_overflow_refuted : let s := rabbit_ctr_system (rabbit_init (rabbit_ld_user_key (repeat 0 16))) in
  rabbit_square_fits (nth 1 (rb_X s) 0) (nth 1 (rb_C s) 0) = false.
Proof. vm_compute. reflexivity. Qed.
Print Assumptions C95_rabbit_overflow_refuted.
