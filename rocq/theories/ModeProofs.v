From Verif Require Import Words TaskModel ModeModel ModeSpec EncSpec.
Open Scope N_scope.
Ltac Zify.zify_post_hook ::= Z.div_mod_to_equations.

(* ---------------------------------------------------------------- padding *)
Lemma pad_round_spec : forall fuel bs p, (0 < bs)%nat -> ((bs - p mod bs) mod bs <= fuel)%nat ->
  pad_round fuel bs p = (p + (bs - p mod bs) mod bs)%nat.
Proof.
  induction fuel as [|f IH]; intros bs p Hb Hf; cbn [pad_round].
  - lia.
  - destruct (Nat.eqb_spec (p mod bs) 0) as [E|E].
    + rewrite E, Nat.sub_0_r, Nat.mod_same by lia. lia.
    + pose proof (Nat.mod_upper_bound p bs ltac:(lia)) as Hu.
      rewrite (Nat.mod_small (bs - p mod bs)) in * by lia.
      destruct (Nat.eq_dec (p mod bs) (bs - 1)) as [E2|E2].
      * assert (S p mod bs = 0)%nat as E3.
        { replace (S p) with (bs * (p / bs) + bs)%nat
            by (pose proof (Nat.div_mod p bs ltac:(lia)); lia).
          rewrite Nat.add_comm, Nat.mul_comm, Nat.mod_add, Nat.mod_same by lia. reflexivity. }
        rewrite IH; [|lia|rewrite E3, Nat.sub_0_r, Nat.mod_same by lia; lia].
        rewrite E3, Nat.sub_0_r, Nat.mod_same by lia. lia.
      * assert (S p mod bs = S (p mod bs))%nat as E3.
        { symmetry. apply (Nat.mod_unique _ _ (p / bs)); [lia|].
          pose proof (Nat.div_mod p bs ltac:(lia)); lia. }
        rewrite IH; [|lia|rewrite E3, Nat.mod_small by lia; lia].
        rewrite E3, (Nat.mod_small (bs - S (p mod bs))) by lia. lia.
Qed.

Lemma padded_size_spec : forall bs n, (0 < bs)%nat -> padded_size bs n = (bs * (n / bs + 1))%nat.
Proof.
  intros bs n Hb. unfold padded_size.
  pose proof (Nat.div_mod n bs ltac:(lia)) as Hd.
  pose proof (Nat.mod_upper_bound n bs ltac:(lia)) as Hu.
  destruct (Nat.eqb_spec (n mod bs) 0) as [E|E].
  - destruct (Nat.eq_dec bs 1) as [->|Hn].
    + rewrite pad_round_spec; rewrite ?Nat.mod_1_r, ?Nat.div_1_r in *; cbn; lia.
    + assert (S n mod bs = 1)%nat as E1.
      { symmetry. apply (Nat.mod_unique _ _ (n / bs)); lia. }
      rewrite pad_round_spec; [|lia|rewrite E1, Nat.mod_small by lia; lia].
      rewrite E1, Nat.mod_small by lia. nia.
  - rewrite pad_round_spec; [|lia|rewrite Nat.mod_small by lia; lia].
    rewrite Nat.mod_small by lia. nia.
Qed.

Definition pad_count (bs n : nat) : nat := (bs - n mod bs)%nat.

Lemma pad_count_eq : forall bs n, (0 < bs)%nat -> (padded_size bs n - n = pad_count bs n)%nat.
Proof.
  intros bs n Hb. rewrite padded_size_spec by exact Hb. unfold pad_count.
  pose proof (Nat.div_mod n bs ltac:(lia)). nia.
Qed.

Lemma pad_count_bounds : forall bs n, (0 < bs)%nat -> (1 <= pad_count bs n <= bs)%nat.
Proof.
  intros bs n Hb. unfold pad_count. pose proof (Nat.mod_upper_bound n bs ltac:(lia)). lia.
Qed.

Lemma x923_pad_form : forall bs rz rnd l, (0 < bs < 256)%nat -> l <> [] ->
  exists filler, length filler = (pad_count bs (length l) - 1)%nat /\
    (octets l -> (forall i, rnd i < 256) -> octets filler) /\
    x923_pad bs rz rnd l = Some (l ++ filler ++ [N.of_nat (pad_count bs (length l))]) /\
    (length (l ++ filler ++ [N.of_nat (pad_count bs (length l))]) mod bs = 0)%nat.
Proof.
  intros bs rz rnd l Hb Hl.
  pose proof (pad_count_bounds bs (length l) ltac:(lia)) as Hk.
  exists (if rz then map rnd (seq 0 (pad_count bs (length l) - 1))
          else repeat 0 (pad_count bs (length l) - 1)).
  assert (length (if rz then map rnd (seq 0 (pad_count bs (length l) - 1))
          else repeat 0 (pad_count bs (length l) - 1)) = (pad_count bs (length l) - 1)%nat) as Hlen.
  { destruct rz; [rewrite map_length, seq_length|rewrite repeat_length]; reflexivity. }
  split; [exact Hlen|]. split.
  { intros _ Hr. destruct rz.
    - unfold octets. apply Forall_forall. intros x Hx. apply in_map_iff in Hx.
      destruct Hx as [i [<- _]]. apply Hr.
    - unfold octets. apply Forall_forall. intros x Hx. apply repeat_spec in Hx. subst. lia. }
  split.
  - unfold x923_pad. destruct bs as [|bs]; [lia|]. destruct l as [|a l]; [congruence|].
    rewrite pad_count_eq by lia. rewrite (N.mod_small (N.of_nat _)) by lia. reflexivity.
  - rewrite !app_length, Hlen. cbn [length].
    replace (length l + (pad_count bs (length l) - 1 + 1))%nat
      with (bs * (length l / bs + 1))%nat.
    + rewrite Nat.mul_comm. apply Nat.mod_mul. lia.
    + unfold pad_count in *. pose proof (Nat.div_mod (length l) bs ltac:(lia)). nia.
Qed.

Lemma x923_pad_padded : forall bs rz rnd l, (0 < bs < 256)%nat -> l <> [] ->
  exists p, x923_pad bs rz rnd l = Some p /\ x923_padded bs l p /\
            (octets l -> (forall i, rnd i < 256) -> octets p).
Proof.
  intros bs rz rnd l Hb Hl.
  destruct (x923_pad_form bs rz rnd l Hb Hl) as [f [H1 [H2 [H3 H4]]]].
  pose proof (pad_count_bounds bs (length l) ltac:(lia)) as Hk.
  eexists. split; [exact H3|]. split.
  - exists f, (pad_count bs (length l)). repeat split; try lia; auto.
  - intros Ho Hr. unfold octets in *. apply Forall_app; split; [exact Ho|].
    apply Forall_app; split; [auto|]. constructor; [lia|constructor].
Qed.

Lemma drop_pad_padded : forall bs text padded ctr, (0 < bs < 256)%nat ->
  x923_padded bs text padded -> N.of_nat (length padded) < W64 ->
  exists o, drop_pad padded ctr =
              Done {| p_out := o; p_out_size := N.of_nat (length text); p_ctr := ctr |} /\
            length o = length padded /\ firstn (length text) o = text.
Proof.
  intros bs text padded ctr Hb [f [k [Hk [Hf [-> Hm]]]]] Hw.
  unfold drop_pad. rewrite app_assoc, rev_app_distr. cbn [rev app].
  rewrite removelast_app by discriminate. cbn [removelast]. rewrite app_nil_r.
  eexists. split; [|split].
  - repeat f_equal. rewrite !app_length. cbn [length].
    rewrite app_assoc in Hw. rewrite !app_length in Hw. cbn [length] in Hw.
    unfold W64 in *.
    replace (N.of_nat (length text + length f + 1) + 18446744073709551616 - N.of_nat k)
      with (N.of_nat (length text) + 1 * 18446744073709551616) by lia.
    rewrite N.mod_add by lia. apply N.mod_small. lia.
  - rewrite !app_length. reflexivity.
  - rewrite <- app_assoc. rewrite firstn_app, Nat.sub_diag, firstn_all. cbn. apply app_nil_r.
Qed.

(* ----------------------------------------------------------------- blocks *)
Fixpoint steps {S} (step : S -> list N -> S * list N) (s : S) (bl : list (list N))
  : S * list N :=
  match bl with
  | [] => (s, [])
  | b :: r => let '(s1, o) := step s b in let '(s2, os) := steps step s1 r in (s2, o ++ os)
  end.

Lemma in_blocks_exists : forall bs l, (0 < bs)%nat -> (length l mod bs = 0)%nat ->
  exists bl, in_blocks bs l bl /\ length l = (bs * length bl)%nat.
Proof.
  intros bs l Hb. remember (length l / bs)%nat as n eqn:En.
  revert l En. induction n as [|n IH]; intros l En Hm.
  - pose proof (Nat.div_mod (length l) bs ltac:(lia)) as Hd. rewrite <- En, Hm in Hd.
    assert (l = []) as -> by (destruct l; cbn in *; [reflexivity|lia]).
    exists []. split; [split; [reflexivity|constructor]|cbn; lia].
  - pose proof (Nat.div_mod (length l) bs ltac:(lia)) as Hd. rewrite <- En, Hm in Hd.
    assert (bs <= length l)%nat as Hle by nia.
    destruct (IH (skipn bs l)) as [bl [[Hc Hf] Hlen]].
    + rewrite skipn_length. apply (Nat.div_unique _ _ _ 0); nia.
    + rewrite skipn_length. symmetry. apply (Nat.mod_unique _ _ n); nia.
    + exists (firstn bs l :: bl). split; [split|].
      * cbn. rewrite Hc. apply firstn_skipn.
      * constructor; [rewrite firstn_length; lia|exact Hf].
      * cbn. rewrite skipn_length in Hlen. lia.
Qed.

Lemma blocks_loop_steps : forall S (step : S -> list N -> S * list N) bs bl s fuel, (0 < bs)%nat ->
  Forall (fun b => length b = bs) bl -> (length bl <= fuel)%nat ->
  blocks_loop step bs fuel s (concat bl) = Done (steps step s bl).
Proof.
  intros S step bs bl. induction bl as [|b bl IH]; intros s fuel Hb Hf Hfu.
  - destruct fuel; reflexivity.
  - inversion Hf as [|b' bl' Hlen Hrest]; subst. cbn [length] in Hfu.
    destruct fuel as [|fuel]; [lia|].
    cbn [concat blocks_loop steps].
    destruct (b ++ concat bl) as [|x xs] eqn:E.
    { destruct b; cbn in *; [lia|discriminate]. }
    rewrite <- E.
    destruct (Nat.ltb_spec (length (b ++ concat bl)) (length b)) as [H|H].
    { rewrite app_length in H. lia. }
    rewrite firstn_app, firstn_all, Nat.sub_diag. cbn [firstn]. rewrite app_nil_r.
    rewrite skipn_app, skipn_all, Nat.sub_diag. cbn [skipn app].
    destruct (step s b) as [s1 o]. rewrite (IH s1 fuel Hb Hrest ltac:(lia)). cbn [obind].
    destruct (steps step s1 bl) as [s2 os]. reflexivity.
Qed.

Lemma concat_length_blocks : forall bs (bl : list (list N)),
  Forall (fun b => length b = bs) bl -> length (concat bl) = (bs * length bl)%nat.
Proof.
  intros bs bl H. induction H as [|b bl Hb _ IH]; cbn; [lia|]. rewrite app_length, IH, Hb. lia.
Qed.

Lemma run_blocks_steps : forall S (step : S -> list N -> S * list N) bs bl s, (0 < bs)%nat ->
  Forall (fun b => length b = bs) bl ->
  run_blocks step bs s (concat bl) = Done (steps step s bl).
Proof.
  intros S step bs bl s Hb Hf. apply blocks_loop_steps; auto.
  rewrite (concat_length_blocks bs) by exact Hf. nia.
Qed.

Lemma xorl_xor_bytes : forall a b, xorl a b = xor_bytes a b.
Proof. induction a as [|x a IH]; intros [|y b]; cbn; try reflexivity. rewrite IH. reflexivity. Qed.

(* outputs of each mode *)
Lemma steps_ecb : forall f bl s, steps (ecb_step f) s bl = (tt, concat (spec_ecb f bl)).
Proof.
  intros f bl. induction bl as [|b bl IH]; intros []; cbn; [reflexivity|].
  rewrite IH. reflexivity.
Qed.

Lemma steps_cbc_enc : forall f bl iv, snd (steps (cbc_step Encrypt f) iv bl) = concat (spec_cbc f iv bl).
Proof.
  intros f bl. induction bl as [|b bl IH]; intros iv; cbn [steps cbc_step spec_cbc concat]; [reflexivity|].
  specialize (IH (f (xorl b iv))). destruct (steps _ _ bl) as [s os]. cbn [snd] in *.
  rewrite IH, xorl_xor_bytes. reflexivity.
Qed.

Lemma steps_ofb : forall f bl iv k,
  snd (steps (ofb_step f) (Nat.iter k f iv) bl) =
  concat (map (fun jp => xor_bytes (snd jp) (Nat.iter (S (fst jp)) f iv)) (combine (seq k (length bl)) bl)).
Proof.
  intros f bl. induction bl as [|b bl IH]; intros iv k; [reflexivity|].
  cbn [steps ofb_step length seq combine map concat fst snd].
  specialize (IH iv (S k)). cbn [Nat.iter nat_rect] in *. unfold Nat.iter in *.
  destruct (steps _ _ bl) as [s os]. cbn [snd] in *. rewrite IH, xorl_xor_bytes. reflexivity.
Qed.

Lemma lor4_be_val : forall a b c d, a < 256 -> b < 256 -> c < 256 -> d < 256 ->
  N.lor (N.lor (N.lor (N.shiftl a 24) (N.shiftl b 16)) (N.shiftl c 8)) d = be_val [a; b; c; d].
Proof.
  intros a b c d Ha Hb Hc Hd. unfold be_val. cbn [fold_left].
  replace (N.shiftl a 24) with (N.shiftl (N.shiftl a 8) 16) by (rewrite N.shiftl_shiftl; reflexivity).
  rewrite <- N.shiftl_lor.
  replace (N.shiftl (N.lor (N.shiftl a 8) b) 16) with (N.shiftl (N.shiftl (N.lor (N.shiftl a 8) b) 8) 8)
    by (rewrite N.shiftl_shiftl; reflexivity).
  rewrite <- N.shiftl_lor.
  rewrite (lor_add a b 8) by exact Hb.
  rewrite (lor_add _ c 8) by exact Hc. rewrite (lor_add _ d 8) by exact Hd.
  change (2 ^ 8) with 256. lia.
Qed.

Lemma split_last4 : forall (iv : list N), (4 <= length iv)%nat ->
  exists p a b c d, iv = p ++ [a; b; c; d].
Proof.
  intros iv H. exists (firstn (length iv - 4) iv).
  assert (length (skipn (length iv - 4) iv) = 4%nat) as H4 by (rewrite skipn_length; lia).
  destruct (skipn (length iv - 4) iv) as [|a [|b [|c [|d [|e l]]]]] eqn:E; try (cbn in H4; lia).
  exists a, b, c, d. rewrite <- E. symmetry. apply firstn_skipn.
Qed.

Lemma ctr_of_block_val : forall iv, octets iv -> (4 <= length iv)%nat ->
  ctr_of_block iv = be_val (skipn (length iv - 4) iv).
Proof.
  intros iv Ho Hl. destruct (split_last4 iv Hl) as [p [a [b [c [d ->]]]]].
  unfold ctr_of_block. rewrite app_length. cbn [length].
  replace (length p + 4 - 4)%nat with (length p) by lia.
  rewrite skipn_app, skipn_all, Nat.sub_diag. cbn [skipn app].
  rewrite !app_nth2 by lia. rewrite Nat.sub_diag.
  replace (length p + 1 - length p)%nat with 1%nat by lia.
  replace (length p + 2 - length p)%nat with 2%nat by lia.
  replace (length p + 3 - length p)%nat with 3%nat by lia. cbn [nth].
  unfold octets in Ho. apply Forall_app in Ho. destruct Ho as [_ Ho].
  repeat match goal with H : Forall _ (_ :: _) |- _ => inversion H; subst; clear H end.
  apply lor4_be_val; assumption.
Qed.

Lemma be_bytes4 : forall u, u < 2 ^ 32 ->
  [N.land (N.shiftr u 24) 255; N.land (N.shiftr (N.land u 0xFF0000) 16) 255;
   N.land (N.shiftr (N.land u 0xFF00) 8) 255; N.land u 255] = be_bytes 4 u.
Proof.
  intros u Hu. cbn [be_bytes app].
  rewrite (mask_shift u 8 16) by reflexivity. rewrite (mask_shift u 8 8) by reflexivity.
  repeat match goal with |- context [N.land ?a 255] => rewrite (land_low a 8) by reflexivity end.
  rewrite !shiftr_div. rewrite !N.div_div by lia. rewrite ?N.mod_mod by lia.
  change (2 ^ 8) with 256. change (2 ^ 16) with (256 * 256). change (2 ^ 24) with (256 * 256 * 256).
  reflexivity.
Qed.

Lemma iv_inc_u32_spec : forall iv, octets iv -> (4 <= length iv)%nat ->
  iv_inc_u32 iv = firstn (length iv - 4) iv ++
                  be_bytes 4 ((be_val (skipn (length iv - 4) iv) + 1) mod 2 ^ 32).
Proof.
  intros iv Ho Hl. unfold iv_inc_u32.
  change (N.lor (N.lor (N.lor (N.shiftl (nth (length iv - 4) iv 0) 24)
      (N.shiftl (nth (length iv - 4 + 1) iv 0) 16))
      (N.shiftl (nth (length iv - 4 + 2) iv 0) 8)) (nth (length iv - 4 + 3) iv 0))
    with (ctr_of_block iv).
  rewrite ctr_of_block_val by assumption. rewrite be_bytes4 by apply addw_lt. reflexivity.
Qed.

Lemma counter_block_length : forall iv j, (4 <= length iv)%nat -> length (counter_block iv j) = length iv.
Proof.
  intros iv j H. unfold counter_block. rewrite app_length, be_bytes_length, firstn_length. lia.
Qed.

Lemma counter_block_octets : forall iv j, octets iv -> octets (counter_block iv j).
Proof.
  intros iv j H. unfold counter_block, octets. apply Forall_app. split.
  - apply Forall_forall. intros x Hx. unfold octets in H. rewrite Forall_forall in H. apply H.
    rewrite <- (firstn_skipn (length iv - 4) iv). apply in_or_app. left. exact Hx.
  - apply be_bytes_bytes.
Qed.

Lemma counter_block_0 : forall iv, octets iv -> (4 <= length iv)%nat -> counter_block iv 0 = iv.
Proof.
  intros iv Ho Hl. unfold counter_block. rewrite N.add_0_r.
  assert (octets (skipn (length iv - 4) iv)) as Hs.
  { unfold octets in *. rewrite Forall_forall in *. intros x Hx. apply Ho.
    rewrite <- (firstn_skipn (length iv - 4) iv). apply in_or_app. right. exact Hx. }
  rewrite N.mod_small.
  - replace 4%nat with (length (skipn (length iv - 4) iv)) at 2 by (rewrite skipn_length; lia).
    rewrite be_bytes_val by exact Hs. apply firstn_skipn.
  - pose proof (be_val_lt _ Hs) as H. rewrite skipn_length in H.
    replace (length iv - (length iv - 4))%nat with 4%nat in H by lia. exact H.
Qed.

Lemma counter_block_S : forall iv j, octets iv -> (4 <= length iv)%nat ->
  iv_inc_u32 (counter_block iv j) = counter_block iv (S j).
Proof.
  intros iv j Ho Hl.
  rewrite iv_inc_u32_spec; [|apply counter_block_octets; exact Ho|rewrite counter_block_length; exact Hl].
  rewrite counter_block_length by exact Hl. unfold counter_block at 1 2 3.
  assert (length (firstn (length iv - 4) iv) = length iv - 4)%nat as Hf by (rewrite firstn_length; lia).
  rewrite firstn_app, Hf, Nat.sub_diag, firstn_firstn, Nat.min_id. cbn [firstn]. rewrite app_nil_r.
  rewrite skipn_app, Hf, Nat.sub_diag. cbn [skipn].
  rewrite skipn_all2 by (rewrite Hf; lia). cbn [app]. f_equal. f_equal.
  rewrite be_val_bytes.
  2: { change (256 ^ N.of_nat 4) with (2 ^ 32). apply N.mod_lt. discriminate. }
  rewrite N.add_mod_idemp_l by discriminate. f_equal. lia.
Qed.

Lemma steps_ctr : forall f bl iv k, octets iv -> (4 <= length iv)%nat ->
  steps (ctr_step f) (counter_block iv k) bl =
  (counter_block iv (k + length bl),
   concat (map (fun jp => xor_bytes (snd jp) (f (counter_block iv (fst jp)))) (combine (seq k (length bl)) bl))).
Proof.
  intros f bl. induction bl as [|b bl IH]; intros iv k Ho Hl.
  - cbn. rewrite Nat.add_0_r. reflexivity.
  - cbn [steps ctr_step length seq combine map concat fst snd].
    rewrite counter_block_S by assumption. rewrite (IH iv (S k) Ho Hl).
    rewrite xorl_xor_bytes. do 2 f_equal. lia.
Qed.

(* -------------------------------------------------- inversion of the modes *)
Section Lawful.
  Variable bs : nat.
  Variable E D : list N -> list N.
  Hypothesis Hbs : (0 < bs < 256)%nat.
  Hypothesis law : forall x, octets x -> length x = bs ->
    D (E x) = x /\ octets (E x) /\ length (E x) = bs.

  Definition block_ok (b : list N) : Prop := length b = bs /\ octets b.

  Lemma E_ok : forall b, block_ok b -> block_ok (E b).
  Proof. intros b [H1 H2]. destruct (law b H2 H1) as [_ [? ?]]. split; assumption. Qed.

  Lemma iter_E_ok : forall k iv, block_ok iv -> block_ok (Nat.iter k E iv).
  Proof. induction k; intros iv H; cbn; [exact H|]. apply E_ok, IHk, H. Qed.

  Lemma xor_ok : forall a b, block_ok a -> block_ok b -> block_ok (xor_bytes a b).
  Proof.
    intros a b [H1 H2] [H3 H4]. rewrite <- xorl_xor_bytes. split.
    - rewrite xorl_length. lia.
    - apply xorl_bytes; assumption.
  Qed.

  Lemma xor_twice : forall a b, block_ok a -> block_ok b -> xor_bytes (xor_bytes a b) b = a.
  Proof.
    intros a b [H1 _] [H2 _]. rewrite <- !xorl_xor_bytes. apply xorl_involutive. lia.
  Qed.

  Lemma ecb_ok : forall bl, Forall block_ok bl -> Forall block_ok (spec_ecb E bl).
  Proof. intros bl H. induction H; cbn; constructor; auto using E_ok. Qed.
  Lemma ecb_inv : forall bl, Forall block_ok bl -> spec_ecb D (spec_ecb E bl) = bl.
  Proof.
    intros bl H. induction H as [|b bl [H1 H2] _ IH]; cbn; [reflexivity|].
    unfold spec_ecb in IH. rewrite IH. destruct (law b H2 H1) as [-> _]. reflexivity.
  Qed.

  Lemma cbc_ok : forall bl iv, block_ok iv -> Forall block_ok bl -> Forall block_ok (spec_cbc E iv bl).
  Proof.
    intros bl. induction bl as [|b bl IH]; intros iv Hi H; cbn; [constructor|].
    inversion H; subst. assert (block_ok (E (xor_bytes b iv))) by (apply E_ok, xor_ok; assumption).
    constructor; auto.
  Qed.
  Lemma cbc_inv : forall bl iv, block_ok iv -> Forall block_ok bl ->
    snd (steps (cbc_step Decrypt D) iv (spec_cbc E iv bl)) = concat bl.
  Proof.
    intros bl. induction bl as [|b bl IH]; intros iv Hi H; cbn [spec_cbc steps concat]; [reflexivity|].
    inversion H; subst. cbn [cbc_step].
    specialize (IH (E (xor_bytes b iv)) ltac:(apply E_ok, xor_ok; assumption) ltac:(assumption)).
    destruct (steps _ _ _) as [s os]. cbn [snd] in *. rewrite IH. f_equal.
    assert (block_ok (xor_bytes b iv)) as [Ha Hb] by (apply xor_ok; assumption).
    destruct (law _ Hb Ha) as [-> _]. rewrite xorl_xor_bytes. apply xor_twice; assumption.
  Qed.

  Lemma stream_ok : forall (g : nat -> list N) bl k, (forall i, block_ok (g i)) -> Forall block_ok bl ->
    Forall block_ok (map (fun jp => xor_bytes (snd jp) (g (fst jp))) (combine (seq k (length bl)) bl)).
  Proof.
    intros g bl. induction bl as [|b bl IH]; intros k Hg H; cbn; [constructor|].
    inversion H; subst. constructor; [apply xor_ok; auto|]. apply IH; assumption.
  Qed.
  Lemma stream_inv : forall (g : nat -> list N) bl k, (forall i, block_ok (g i)) -> Forall block_ok bl ->
    let c := map (fun jp => xor_bytes (snd jp) (g (fst jp))) (combine (seq k (length bl)) bl) in
    map (fun jp => xor_bytes (snd jp) (g (fst jp))) (combine (seq k (length c)) c) = bl.
  Proof.
    intros g bl. induction bl as [|b bl IH]; intros k Hg H; cbn [length seq combine map fst snd]; [reflexivity|].
    inversion H; subst. cbv zeta in *. cbn [length seq combine map fst snd].
    rewrite IH by assumption. f_equal. apply xor_twice; auto.
  Qed.

  Lemma ofb_ok : forall bl iv, block_ok iv -> Forall block_ok bl -> Forall block_ok (spec_ofb E iv bl).
  Proof.
    intros bl iv Hi H. unfold spec_ofb. apply (stream_ok (fun j => Nat.iter (S j) E iv)); auto.
    intro i. apply iter_E_ok. exact Hi.
  Qed.
  Lemma ofb_inv : forall bl iv, block_ok iv -> Forall block_ok bl ->
    spec_ofb E iv (spec_ofb E iv bl) = bl.
  Proof.
    intros bl iv Hi H. unfold spec_ofb. apply (stream_inv (fun j => Nat.iter (S j) E iv)); auto.
    intro i. apply iter_E_ok. exact Hi.
  Qed.

  Hypothesis Hbs4 : (4 <= bs)%nat.
  Lemma cb_ok : forall iv j, block_ok iv -> block_ok (counter_block iv j).
  Proof.
    intros iv j [H1 H2]. split; [rewrite counter_block_length; lia|apply counter_block_octets; exact H2].
  Qed.
  Lemma ctr_ok : forall bl iv, block_ok iv -> Forall block_ok bl -> Forall block_ok (spec_ctr E iv bl).
  Proof.
    intros bl iv Hi H. unfold spec_ctr. apply (stream_ok (fun j => E (counter_block iv j))); auto.
    intro i. apply E_ok, cb_ok. exact Hi.
  Qed.
  Lemma ctr_inv : forall bl iv, block_ok iv -> Forall block_ok bl ->
    spec_ctr E iv (spec_ctr E iv bl) = bl.
  Proof.
    intros bl iv Hi H. unfold spec_ctr. apply (stream_inv (fun j => E (counter_block iv j))); auto.
    intro i. apply E_ok, cb_ok. exact Hi.
  Qed.
End Lawful.
