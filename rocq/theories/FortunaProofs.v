(* Lemmas behind FortunaProps.v. *)
From Verif Require Import Words EncSpec TaskModel ModeModel ModeSpec AesModel AesProofs HashModel MacModel CipherBase CipherLib FortunaModel.
From Verif Require MacProofs UtilProofs.
Open Scope N_scope.

(* the SHA-256 of the library (see HashProps.v for how it relates to the standard) *)
Definition H (m : list N) : list N := match hash_fn sha256 m with Done d => d | UB => [] end.
Lemma H_ok : forall m, octets m -> N.of_nat (length m) < 2 ^ 61 -> hash_fn sha256 m = Done (H m) /\ length (H m) = 32%nat /\ octets (H m).
Proof.
  intros m O L. destruct MacProofs.i_sha256 as (_ & _ & _ & _ & fn & E & A). cbn [MacProofs.ptrs h_fn] in E. injection E as <-.
  exact (A m O L).
Qed.
Lemma H_small : forall m, octets m -> (length m <= 1000)%nat -> hash_fn sha256 m = Done (H m) /\ length (H m) = 32%nat /\ octets (H m).
Proof. intros m O L. apply H_ok; [exact O|]. apply N.le_lt_trans with 1000; [lia|reflexivity]. Qed.
Lemma H_def : H = fun m => match hash_fn sha256 m with Done d => d | UB => [] end.
Proof. reflexivity. Qed.
Opaque H.

(* one block: the inverse AES-128 permutation (this is what the library applies for this action in ECB mode) of the counter, padded *)
Definition counter_block (c : N) : list N := le_bytes 4 c ++ repeat 0 11 ++ [12].
Definition B (K : list N) (c : N) : list N := bc_dec aes128 K (counter_block c).
Lemma le4 : forall c, c < 2 ^ 32 -> [and c 0xFF; and (shr (and c 0xFF00) 8) 0xFF; and (shr (and c 0xFF0000) 16) 0xFF; shr c 24] = le_bytes 4 c.
Proof.
  intros c Hc. rewrite <- UtilProofs.le_bytes_nth. cbn [seq map].
  change (8 * N.of_nat 0) with 0. change (8 * N.of_nat 1) with 8. change (8 * N.of_nat 2) with 16. change (8 * N.of_nat 3) with 24.
  rewrite N.pow_0_r, N.div_1_r. rewrite <- (UtilProofs.top_byte c 24 Hc).
  change 0xFF00 with (N.shiftl 255 8). change 0xFF0000 with (N.shiftl 255 16). rewrite !UtilProofs.mask_byte.
  rewrite !N.shiftr_shiftl_r by lia. rewrite !N.sub_diag, !N.shiftr_0_r.
  change 0xFF with (N.ones 8). rewrite !N.land_ones. change (2 ^ 8) with 256. rewrite !N.mod_mod by discriminate. reflexivity.
Qed.
Lemma process4 : forall (E D : list N -> list N) rnd a b c d,
  meta_block_processing 16 E D rnd EncryptWithoutRandomPad ECB [] [a; b; c; d] =
  let o := D ([a; b; c; d] ++ repeat 0 11 ++ [12]) in
  Some (Done {| p_out := o; p_out_size := N.of_nat (length o); p_ctr := None |}).
Proof.
  intros. unfold meta_block_processing. change (x923_pad 16 false rnd [a; b; c; d]) with (Some ([a; b; c; d] ++ repeat 0 11 ++ [12])).
  cbv iota beta zeta. cbn [repeat app]. unfold mode_blocks, run_blocks, select. cbn [length blocks_loop Nat.ltb Nat.leb ecb_step firstn skipn obind]. rewrite app_nil_r. reflexivity.
Qed.
Definition key32 (K : list N) : Prop := length K = 32%nat /\ octets K.
Lemma key_acc : forall K, key32 K -> acceptable_key aes128 K.
Proof.
  intros K [L O]. split; [intros ->; discriminate L|]. split; [exact O|]. split; [intros [X|X]; discriminate X|reflexivity].
Qed.
Lemma cb_ok : forall c, octets (counter_block c) /\ length (counter_block c) = 16%nat.
Proof.
  intro c. unfold counter_block. split.
  - apply Forall_app. split; [apply le_bytes_bytes|]. repeat constructor.
  - rewrite app_length, le_bytes_length. reflexivity.
Qed.
Lemma B_ok : forall K c, key32 K -> octets (B K c) /\ length (B K c) = 16%nat.
Proof.
  intros K c HK. destruct aes128_lawful as (_ & _ & _ & A). destruct (cb_ok c) as [O L]. exact (proj2 (proj2 (A K (key_acc K HK) (counter_block c) O L))).
Qed.
Lemma check4 : forall pem K a b c d, length K = 32%nat ->
  task_check pem (mkTask AES128 ECB EncryptWithoutRandomPad (Some K) (N.of_nat (length K)) None 0 (Some [a; b; c; d]) 4 []) = Success.
Proof. intros pem K a b c d ->. reflexivity. Qed.
Lemma block_ok : forall K c, key32 K -> c < 2 ^ 32 -> fortuna_block K c = Done (Some (B K c)).
Proof.
  intros K c HK Hc. unfold fortuna_block, fortuna_task. rewrite le4 by exact Hc.
  pose proof (le_bytes_length 4 c) as L. unfold B, counter_block. destruct (le_bytes 4 c) as [|x0 [|x1 [|x2 [|x3 [|? ?]]]]]; try discriminate L.
  unfold block_cipher. rewrite check4 by (destruct HK; assumption). cbv iota.
  change (bc_check aes128 (key_bytes _)) with (Done Success). cbn [obind t_mode t_action in_bytes iv_bytes t_in t_iv].
  change (key_bytes _) with K. change (bc_bs aes128) with 16%nat.
  rewrite process4. cbv zeta iota beta. cbn [obind r_result r_out p_out]. reflexivity.
Qed.
Lemma B_def : B = fun K c => bc_dec aes128 K (le_bytes 4 c ++ repeat 0 11 ++ [12]).
Proof. reflexivity. Qed.
Opaque B.
Definition stream (K : list N) (c : N) (k : nat) : list N := concat (map (fun i => B K ((c + N.of_nat i) mod 2 ^ 32)) (seq 0 k)).
Lemma stream_length : forall K c k, key32 K -> length (stream K c k) = (16 * k)%nat.
Proof.
  intros K c k HK. unfold stream.
  assert (forall q, length (concat (map (fun i => B K ((c + N.of_nat i) mod 2 ^ 32)) (seq q k))) = (16 * k)%nat) as A; [|apply A].
  induction k as [|k IH]; intro q; [reflexivity|]. cbn [seq map concat]. rewrite app_length, IH, (proj2 (B_ok K _ HK)). lia.
Qed.
Lemma stream_octets : forall K c k, key32 K -> octets (stream K c k).
Proof.
  intros K c k HK. apply MacProofs.octets_concat. intros x Hx. apply in_map_iff in Hx. destruct Hx as (i & <- & _). apply (proj1 (B_ok K _ HK)).
Qed.
Lemma blocks_ok : forall k f, key32 (f_K f) -> f_C f < 2 ^ 32 ->
  fortuna_blocks k f = Done (Some (stream (f_K f) (f_C f) k), mkF (f_K f) ((f_C f + N.of_nat k) mod 2 ^ 32) (f_calls f) (f_seed f)).
Proof.
  induction k as [|k IH]; intros f HK HC.
  - cbn [fortuna_blocks]. rewrite N.add_0_r, N.mod_small by exact HC. destruct f; reflexivity.
  - cbn [fortuna_blocks]. rewrite (block_ok _ _ HK HC). cbn [obind]. rewrite IH; cbn [f_K f_C f_calls f_seed].
    2: exact HK. 2: apply N.mod_lt; discriminate.
    cbn [obind]. apply (f_equal Done). apply f_equal2.
    + apply (f_equal Some). unfold stream. cbn [seq map concat]. apply f_equal2; [rewrite N.add_0_r, (N.mod_small _ _ HC); reflexivity|].
      rewrite <- seq_shift, map_map. apply f_equal. apply map_ext. intro i. apply f_equal. unfold addw. rewrite N.add_mod_idemp_l by discriminate.
      replace (f_C f + 1 + N.of_nat i) with (f_C f + N.of_nat (S i)) by lia. reflexivity.
    + unfold addw. rewrite N.add_mod_idemp_l by discriminate. replace (f_C f + 1 + N.of_nat k) with (f_C f + N.of_nat (S k)) by lia. reflexivity.
Qed.

(* a generator as the library builds them *)
Definition proper (f : fortuna) : Prop := key32 (f_K f) /\ f_C f < 2 ^ 32 /\ octets (f_seed f) /\ (length (f_seed f) <= 32)%nat.
Definition reseeded (f : fortuna) (s : list N) : fortuna :=
  mkF (H (f_K f ++ s)) ((f_C f + 1) mod 2 ^ 32) (f_calls f)
      (H (firstn 16 (H (f_K f ++ s)) ++ skipn 16 (f_K f) ++ firstn (length s) (H (f_K f ++ s)))).
Lemma reseed_ok : forall f s, proper f -> octets s -> (length s <= 32)%nat -> reseed f s = Done (reseeded f s) /\ proper (reseeded f s).
Proof.
  intros f s ((LK & OK) & HC & _) O L. unfold reseed, reseeded.
  destruct (H_small (f_K f ++ s)) as (E1 & L1 & O1); [apply Forall_app; split; assumption|rewrite app_length; lia|]. rewrite E1. cbn [obind].
  rewrite (firstn_all2 (H (f_K f ++ s))) by lia. rewrite (proj2 (Nat.ltb_ge _ _)) by lia.
  destruct (H_small (firstn 16 (H (f_K f ++ s)) ++ skipn 16 (f_K f) ++ firstn (length s) (H (f_K f ++ s)))) as (E2 & L2 & O2).
  - repeat (apply Forall_app; split); [apply bytes_firstn; exact O1|apply bytes_skipn; exact OK|apply bytes_firstn; exact O1].
  - rewrite !app_length, !firstn_length, skipn_length. lia.
  - rewrite E2. cbn [obind]. split; [reflexivity|]. split; [split; assumption|]. split; [apply N.mod_lt; discriminate|]. split; [exact O2|cbn [f_seed]; lia].
Qed.
(* before the blocks are made *)
Definition called (f : fortuna) : fortuna := mkF (f_K f) (f_C f) (f_calls f + 1) (f_seed f).
Definition rested (f : fortuna) : fortuna := mkF (f_K f) (f_C f) 0 (f_seed f).
Definition prepared (sys : list N) (f : fortuna) : fortuna :=
  let f1 := if f_C f =? 0 then reseeded (called f) sys else called f in
  if 64 <? f_calls f1 then rested (reseeded f1 (f_seed f1)) else f1.
Lemma prepared_ok : forall sys f, proper f -> octets sys -> length sys = 32%nat -> proper (prepared sys f).
Proof.
  intros sys f P O L. unfold prepared. set (f1 := if f_C f =? 0 then reseeded (called f) sys else called f).
  assert (proper f1) as P1. { unfold f1. destruct (f_C f =? 0); [apply reseed_ok; [exact P|exact O|lia]|exact P]. }
  destruct (64 <? f_calls f1); [|exact P1]. apply (reseed_ok f1 (f_seed f1)); [exact P1|apply P1|apply P1].
Qed.
Definition advanced (f : fortuna) (k : nat) : fortuna := mkF (f_K f) ((f_C f + N.of_nat k) mod 2 ^ 32) (f_calls f) (f_seed f).
Lemma generate_ok : forall sys f k, proper f -> octets sys -> length sys = 32%nat ->
  generate_blocks sys f k = Done (Some (stream (f_K (prepared sys f)) (f_C (prepared sys f)) k), advanced (prepared sys f) k).
Proof.
  intros sys f k P O L. pose proof (prepared_ok sys f P O L) as PP. unfold generate_blocks. cbv zeta. change (mkF (f_K f) (f_C f) (f_calls f + 1) (f_seed f)) with (called f).
  change (f_C (called f)) with (f_C f).
  assert ((if f_C f =? 0 then reseed (called f) sys else Done (called f)) = Done (if f_C f =? 0 then reseeded (called f) sys else called f)) as E1.
  { destruct (f_C f =? 0); [apply reseed_ok; [exact P|exact O|lia]|reflexivity]. }
  rewrite E1. cbn [obind]. unfold prepared in *. set (f1 := if f_C f =? 0 then reseeded (called f) sys else called f) in *.
  assert (proper f1) as P1. { unfold f1. destruct (f_C f =? 0); [apply reseed_ok; [exact P|exact O|lia]|exact P]. }
  assert ((if 64 <? f_calls f1 then obind (reseed f1 (f_seed f1)) (fun f => Done (mkF (f_K f) (f_C f) 0 (f_seed f))) else Done f1) =
          Done (if 64 <? f_calls f1 then rested (reseeded f1 (f_seed f1)) else f1)) as E2.
  { destruct (64 <? f_calls f1); [|reflexivity]. rewrite (proj1 (reseed_ok f1 (f_seed f1) P1 (proj1 (proj2 (proj2 P1))) (proj2 (proj2 (proj2 P1))))). reflexivity. }
  rewrite E2. cbn [obind]. set (f2 := if 64 <? f_calls f1 then rested (reseeded f1 (f_seed f1)) else f1) in *.
  rewrite blocks_ok by apply PP. reflexivity.
Qed.
Lemma advanced_ok : forall f k, proper f -> proper (advanced f k).
Proof. intros f k (A & _ & C). split; [exact A|]. split; [apply N.mod_lt; discriminate|exact C]. Qed.
(* a request for n bytes *)
Definition rekeyed (f : fortuna) (K : list N) : fortuna := mkF K (f_C f) (f_calls f) (f_seed f).
Definition requested (n : N) : Prop := 0 < n < 2 ^ 20.
Definition after (sys sys2 : list N) (f : fortuna) (n : N) : fortuna :=
  let g := prepared sys2 (advanced (prepared sys f) (16 * N.to_nat n)) in
  rekeyed (advanced g 2) (stream (f_K g) (f_C g) 2).
Lemma request_ok : forall sys sys2 f n, proper f -> octets sys -> length sys = 32%nat -> octets sys2 -> length sys2 = 32%nat -> requested n ->
  get_random_block sys sys2 f n =
    Done (Some (firstn (N.to_nat n) (stream (f_K (prepared sys f)) (f_C (prepared sys f)) (16 * N.to_nat n))), after sys sys2 f n) /\
  proper (after sys sys2 f n) /\
  length (firstn (N.to_nat n) (stream (f_K (prepared sys f)) (f_C (prepared sys f)) (16 * N.to_nat n))) = N.to_nat n.
Proof.
  intros sys sys2 f n P O L O2 L2 [R1 R2]. unfold get_random_block. change (2 ^ 20) with 0x100000 in R2.
  destruct (N.eqb_spec n 0); [lia|]. destruct (N.leb_spec 0x100000 n); [lia|]. cbn [orb].
  pose proof (prepared_ok sys f P O L) as P1. pose proof (advanced_ok _ (16 * N.to_nat n) P1) as P2. pose proof (prepared_ok sys2 _ P2 O2 L2) as P3.
  rewrite generate_ok by assumption. cbn [obind]. rewrite generate_ok by assumption. cbn [obind].
  assert (key32 (f_K (prepared sys2 (advanced (prepared sys f) (16 * N.to_nat n))))) as K3 by apply P3.
  split; [|split].
  - unfold after, rekeyed. rewrite (firstn_all2 (n := 32) (stream (f_K (prepared sys2 _)) _ 2)) by (rewrite stream_length by exact K3; lia). reflexivity.
  - unfold after, rekeyed. split; [split; cbn [f_K]; [rewrite stream_length by exact K3; lia|apply stream_octets; exact K3]|]. apply (advanced_ok _ 2 P3).
  - rewrite firstn_length, stream_length by apply P1. lia.
Qed.
Lemma refused : forall sys sys2 f n, ~ requested n -> get_random_block sys sys2 f n = Done (None, f).
Proof.
  intros sys sys2 f n R. unfold get_random_block, requested in *. change (2 ^ 20) with 0x100000 in R.
  destruct (N.eqb_spec n 0); [reflexivity|]. destruct (N.leb_spec 0x100000 n); [reflexivity|]. exfalso. lia.
Qed.

(* the system is consulted only when the counter is 0 *)
Lemma prepared_indep : forall sys sys' f, f_C f <> 0 -> prepared sys f = prepared sys' f.
Proof. intros. unfold prepared. destruct (N.eqb_spec (f_C f) 0); [contradiction|reflexivity]. Qed.
Lemma prepared_C : forall sys f, f_C f <> 0 -> f_C f + 1 < 2 ^ 32 -> f_C f <= f_C (prepared sys f) <= f_C f + 1.
Proof.
  intros sys f Hn Hs. unfold prepared. destruct (N.eqb_spec (f_C f) 0); [contradiction|].
  destruct (64 <? f_calls (called f)); cbn [f_C rested reseeded called]; [|lia]. rewrite N.mod_small by exact Hs. lia.
Qed.

(* histories *)
Definition call_ok (c : fortuna_call) : Prop := match c with Reseed s => octets s /\ (length s <= 32)%nat | _ => True end.
Definition blocks_ok_sys (sys : nat -> list N * list N) : Prop :=
  forall i, (octets (fst (sys i)) /\ length (fst (sys i)) = 32%nat) /\ (octets (snd (sys i)) /\ length (snd (sys i)) = 32%nat).
Definition answer_fits (c : fortuna_call) (a : fortuna_answer) : Prop :=
  match c, a with
  | Reseed _, Reseeded => True
  | GetBlock n, Block (Some b) => requested n /\ length b = N.to_nat n /\ octets b
  | GetBlock n, Block None => ~ requested n
  | GetByte, Byte b => b < 256
  | _, _ => False
  end.
Lemma requested_dec : forall n, requested n \/ ~ requested n.
Proof. intro n. unfold requested. generalize (2 ^ 20). intro m. lia. Qed.
Lemma step_ok : forall s1 s2 f c, proper f -> octets s1 -> length s1 = 32%nat -> octets s2 -> length s2 = 32%nat -> call_ok c ->
  exists a f', fortuna_step s1 s2 f c = Done (a, f') /\ answer_fits c a /\ proper f'.
Proof.
  intros s1 s2 f c P O1 L1 O2 L2 Hc. destruct c as [s|n|]; cbn [fortuna_step call_ok] in *.
  - destruct Hc as [Hs Hl]. destruct (reseed_ok f s P Hs Hl) as [E P']. rewrite E. cbn [obind]. exists Reseeded, (reseeded f s). split; [reflexivity|]. split; [exact I|exact P'].
  - destruct (requested_dec n) as [R|R].
    + destruct (request_ok s1 s2 f n P O1 L1 O2 L2 R) as (E & P' & L). rewrite E. cbn [obind]. eexists _, _. split; [reflexivity|]. split; [|exact P'].
      split; [exact R|]. split; [exact L|]. apply bytes_firstn, stream_octets. apply prepared_ok; assumption.
    + rewrite refused by exact R. cbn [obind]. exists (Block None), f. split; [reflexivity|]. split; [exact R|exact P].
  - unfold get_random_byte. assert (requested 16) as R by (split; reflexivity).
    destruct (request_ok s1 s2 f 16 P O1 L1 O2 L2 R) as (E & P' & L). rewrite E. cbn [obind]. eexists _, _. split; [reflexivity|]. split; [|exact P'].
    apply UtilProofs.octet_nth. apply bytes_firstn, stream_octets. apply prepared_ok; assumption.
Qed.
Lemma run_ok : forall l sys f, proper f -> blocks_ok_sys sys -> Forall call_ok l ->
  exists as_ f', fortuna_run sys f l = Done (as_, f') /\ Forall2 answer_fits l as_ /\ proper f'.
Proof.
  induction l as [|c l IH]; intros sys f P S F; cbn [fortuna_run].
  - exists [], f. auto.
  - inversion F as [|x y Hc Fl]; subst. destruct (S 0%nat) as [[O1 L1] [O2 L2]].
    destruct (step_ok _ _ f c P O1 L1 O2 L2 Hc) as (a & f1 & E & A & P1). rewrite E. cbn [obind].
    destruct (IH (fun i => sys (Datatypes.S i)) f1 P1 (fun i => S (Datatypes.S i)) Fl) as (as_ & f2 & E2 & A2 & P2). rewrite E2. cbn [obind].
    exists (a :: as_), f2. auto.
Qed.
(* how far a call moves the counter at most *)
Definition cost (c : fortuna_call) : N :=
  match c with Reseed _ => 1 | GetBlock n => if (0 <? n) && (n <? 2 ^ 20) then 16 * n + 4 else 0 | GetByte => 260 end.
Lemma advanced_C : forall f k, f_C f + N.of_nat k < 2 ^ 32 -> f_C (advanced f k) = f_C f + N.of_nat k.
Proof. intros f k Hk. cbn [advanced f_C]. apply N.mod_small. exact Hk. Qed.
Lemma after_C : forall s1 s2 f n, f_C f <> 0 -> f_C f + (16 * n + 4) < 2 ^ 32 -> f_C f <= f_C (after s1 s2 f n) <= f_C f + (16 * n + 4).
Proof.
  intros s1 s2 f n Hn Hs. unfold after. cbv zeta. set (g := prepared s2 (advanced (prepared s1 f) (16 * N.to_nat n))).
  change (f_C (rekeyed (advanced g 2) (stream (f_K g) (f_C g) 2))) with (f_C (advanced g 2)).
  pose proof (prepared_C s1 f Hn ltac:(clear - Hs; lia)) as H1. set (p := prepared s1 f) in *.
  assert (f_C (advanced p (16 * N.to_nat n)) = f_C p + 16 * n) as E1.
  { rewrite advanced_C; [lia|]. apply N.le_lt_trans with (f_C f + (16 * n + 4)); [clear - H1; lia|exact Hs]. }
  pose proof (prepared_C s2 (advanced p (16 * N.to_nat n))) as H2. rewrite E1 in H2. fold g in H2.
  specialize (H2 ltac:(clear - H1 Hn; lia) ltac:(clear - H1 Hs; lia)).
  rewrite advanced_C; [clear - H1 H2; lia|]. clear - H1 H2 Hs; lia.
Qed.
Lemma after_indep : forall s1 s2 t1 t2 f n, f_C f <> 0 -> f_C f + (16 * n + 4) < 2 ^ 32 -> after s1 s2 f n = after t1 t2 f n.
Proof.
  intros s1 s2 t1 t2 f n Hn Hs. unfold after. cbv zeta. rewrite (prepared_indep s1 t1 f Hn).
  pose proof (prepared_C t1 f Hn ltac:(clear - Hs; lia)) as H1. set (p := prepared t1 f) in *.
  assert (f_C (advanced p (16 * N.to_nat n)) = f_C p + 16 * n) as E1.
  { rewrite advanced_C; [lia|]. apply N.le_lt_trans with (f_C f + (16 * n + 4)); [clear - H1; lia|exact Hs]. }
  rewrite (prepared_indep s2 t2); [reflexivity|]. rewrite E1. clear - H1 Hn. lia.
Qed.
Definition ok32 (s : list N) : Prop := octets s /\ length s = 32%nat.
Lemma step_indep : forall s1 s2 t1 t2 f c, proper f -> ok32 s1 -> ok32 s2 -> ok32 t1 -> ok32 t2 -> call_ok c -> f_C f <> 0 -> f_C f + cost c < 2 ^ 32 ->
  fortuna_step s1 s2 f c = fortuna_step t1 t2 f c /\
  forall a f', fortuna_step s1 s2 f c = Done (a, f') -> f_C f <= f_C f' <= f_C f + cost c.
Proof.
  intros s1 s2 t1 t2 f c P [O1 L1] [O2 L2] [O3 L3] [O4 L4] Hc Hn Hs. destruct c as [s|n|]; cbn [fortuna_step call_ok cost] in *.
  - split; [reflexivity|]. intros a f' E. destruct Hc as [A B']. rewrite (proj1 (reseed_ok f s P A B')) in E. cbn [obind] in E.
    apply (f_equal (fun o => match o with Done (_, g) => f_C g | UB => 0 end)) in E. cbn [f_C reseeded] in E. rewrite N.mod_small in E by exact Hs. rewrite <- E. lia.
  - destruct (requested_dec n) as [R|R].
    + pose proof R as [R1 R2]. destruct (N.ltb_spec 0 n) as [X|X]; [|clear - R1 X; lia]. destruct (N.ltb_spec n (2 ^ 20)) as [Y|Y]; [|exfalso; clear - R2 Y; revert R2 Y; generalize (2 ^ 20); intros; lia]. cbn [andb] in *.
      destruct (request_ok s1 s2 f n P O1 L1 O2 L2 R) as (E & _ & _). destruct (request_ok t1 t2 f n P O3 L3 O4 L4 R) as (E' & _ & _). rewrite E, E'. cbn [obind].
      rewrite (prepared_indep s1 t1 f Hn), (after_indep s1 s2 t1 t2 f n Hn Hs). split; [reflexivity|].
      intros a f' Ef. apply (f_equal (fun o => match o with Done (_, g) => f_C g | UB => 0 end)) in Ef. rewrite <- Ef. apply after_C; assumption.
    + rewrite !refused by exact R. split; [reflexivity|]. intros a f' Ef. cbn [obind] in Ef. injection Ef as _ <-. lia.
  - assert (requested 16) as R by (split; reflexivity). unfold get_random_byte.
    destruct (request_ok s1 s2 f 16 P O1 L1 O2 L2 R) as (E & _ & _). destruct (request_ok t1 t2 f 16 P O3 L3 O4 L4 R) as (E' & _ & _). rewrite E, E'. cbn [obind].
    rewrite (prepared_indep s1 t1 f Hn), (after_indep s1 s2 t1 t2 f 16 Hn Hs). split; [reflexivity|].
    intros a f' Ef. apply (f_equal (fun o => match o with Done (_, g) => f_C g | UB => 0 end)) in Ef. rewrite <- Ef. apply after_C; assumption.
Qed.
Definition total_cost (l : list fortuna_call) : N := fold_right (fun c s => cost c + s) 0 l.
Lemma run_indep : forall l sys sys' f, proper f -> blocks_ok_sys sys -> blocks_ok_sys sys' -> Forall call_ok l -> f_C f <> 0 -> f_C f + total_cost l < 2 ^ 32 ->
  fortuna_run sys f l = fortuna_run sys' f l.
Proof.
  induction l as [|c l IH]; intros sys sys' f P S S' F Hn Hs; [reflexivity|]. cbn [fortuna_run total_cost fold_right] in *. fold (total_cost l) in Hs.
  inversion F as [|x y Hc Fl]; subst. destruct (S 0%nat) as [A1 A2]. destruct (S' 0%nat) as [A3 A4].
  destruct (step_indep _ _ _ _ f c P A1 A2 A3 A4 Hc Hn) as [E C].
  { apply N.le_lt_trans with (f_C f + (cost c + total_cost l)); [lia|exact Hs]. }
  destruct A1 as [O1 L1]. destruct A2 as [O2 L2].
  destruct (step_ok _ _ f c P O1 L1 O2 L2 Hc) as (a & f1 & E1 & _ & P1). rewrite <- E, E1. cbn [obind].
  specialize (C a f1 E1). rewrite (IH (fun i => sys (Datatypes.S i)) (fun i => sys' (Datatypes.S i)) f1 P1 (fun i => S (Datatypes.S i)) (fun i => S' (Datatypes.S i)) Fl).
  - reflexivity.
  - clear - Hn C. lia.
  - apply N.le_lt_trans with (f_C f + (cost c + total_cost l)); [clear - C; lia|exact Hs].
Qed.
Lemma init_proper : proper fortuna_init.
Proof. split; [split; [reflexivity|repeat constructor]|]. split; [reflexivity|]. split; [constructor|cbn; lia]. Qed.
Lemma stream_def : stream = fun K c k => concat (map (fun i => B K ((c + N.of_nat i) mod 2 ^ 32)) (seq 0 k)).
Proof. reflexivity. Qed.
