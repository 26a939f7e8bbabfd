(* UUEncode: line structure of the encoder and round trip. *)
From Verif Require Import Words EncModel EncSpec EncProofs.
Open Scope N_scope.
Ltac Zify.zify_post_hook ::= Z.div_mod_to_equations.

(* groups of a whole line *)
Fixpoint uu_groups (l : list N) : list N :=
  match l with
  | [] => []
  | [a] => uu_block_chars (N.lor (N.shiftl (gather8 [a]) 16) 0x101)
  | [a; b] => uu_block_chars (N.lor (N.shiftl (gather8 [a; b]) 8) 0x01)
  | a :: b :: c :: r => uu_block_chars (gather8 [a; b; c]) ++ uu_groups r
  end.

Definition uu_line (p : list N) : list N := uu_flush (N.of_nat (length p)) (uu_groups p).

Lemma uu_groups_length : forall l, length (uu_groups l) = (4 * ((length l + 2) / 3))%nat.
Proof.
  induction l as [ | a | a b | a b c r IH ] using list3_ind; try reflexivity.
  cbn [uu_groups]. rewrite app_length, IH. cbn [length uu_block_chars].
  replace (S (S (S (length r))) + 2)%nat with (length r + 2 + 1 * 3)%nat by lia.
  rewrite Nat.div_add by lia. lia.
Qed.

Lemma uu_groups_app : forall p q, (length p mod 3 = 0)%nat ->
  uu_groups (p ++ q) = uu_groups p ++ uu_groups q.
Proof.
  induction p as [ | a | a b | a b c r IH ] using list3_ind; intros q Hm.
  - reflexivity.
  - cbn in Hm. discriminate.
  - cbn in Hm. discriminate.
  - cbn [app uu_groups]. rewrite IH, app_assoc; [reflexivity|].
    cbn [length] in Hm. replace (S (S (S (length r)))) with (length r + 1 * 3)%nat in Hm by lia.
    rewrite Nat.mod_add in Hm by lia. assumption.
Qed.

Lemma uu_loop_lines : forall l p, (length p mod 3 = 0)%nat -> (length p < 45)%nat -> l <> [] ->
  uu_encode_loop (uu_groups p) (N.of_nat (length p)) l =
  uu_line (firstn 45 (p ++ l)) ++
  (if Nat.leb (length p + length l) 45 then [] else uu_encode_loop [] 0 (skipn 45 (p ++ l))).
Proof.
  induction l as [ | a | a b | a b c r IH ] using list3_ind; intros p Hm Hp Hn.
  - congruence.
  - cbn [uu_encode_loop length].
    replace (Nat.leb (length p + 1) 45) with true by (symmetry; apply Nat.leb_le; lia).
    rewrite app_nil_r, firstn_all2 by (rewrite app_length; cbn; lia).
    unfold uu_line. rewrite uu_groups_app by assumption. rewrite app_length. cbn [uu_groups length].
    f_equal. lia.
  - cbn [uu_encode_loop length].
    replace (Nat.leb (length p + 2) 45) with true by (symmetry; apply Nat.leb_le; lia).
    rewrite app_nil_r, firstn_all2 by (rewrite app_length; cbn; lia).
    unfold uu_line. rewrite uu_groups_app by assumption. rewrite app_length. cbn [uu_groups length].
    f_equal. lia.
  - cbn [uu_encode_loop].
    assert (uu_groups p ++ uu_block_chars (gather8 [a; b; c]) = uu_groups (p ++ [a; b; c])) as ->.
    { rewrite uu_groups_app by assumption. cbn [uu_groups]. rewrite app_nil_r. reflexivity. }
    assert (length (p ++ [a; b; c]) = (length p + 3)%nat) as Hlen by (rewrite app_length; reflexivity).
    assert (N.of_nat (length p) + 3 = N.of_nat (length (p ++ [a; b; c]))) as -> by lia.
    assert (p ++ a :: b :: c :: r = (p ++ [a; b; c]) ++ r) as -> by (rewrite <- app_assoc; reflexivity).
    set (p' := p ++ [a; b; c]) in *.
    assert (length p' mod 3 = 0)%nat as Hm'.
    { rewrite Hlen. replace (length p + 3)%nat with (length p + 1 * 3)%nat by lia.
      rewrite Nat.mod_add by lia. assumption. }
    destruct r as [|x r].
    + rewrite app_nil_r. cbn [length].
      replace (Nat.leb (length p + 3) 45) with true by (symmetry; apply Nat.leb_le; lia).
      rewrite app_nil_r, firstn_all2 by lia. reflexivity.
    + rewrite uu_groups_length.
      destruct (Nat.eqb_spec (4 * ((length p' + 2) / 3)) 60) as [He|He].
      * assert (length p' = 45)%nat as H45 by lia.
        replace (Nat.leb (length p + length (a :: b :: c :: x :: r)) 45) with false
          by (symmetry; apply Nat.leb_gt; cbn [length]; lia).
        rewrite firstn_app, H45, Nat.sub_diag, firstn_O, app_nil_r, firstn_all2 by lia.
        rewrite skipn_app, H45, Nat.sub_diag, skipn_O, skipn_all2 by lia. cbn [app].
        unfold uu_line. rewrite H45. reflexivity.
      * rewrite IH; [|assumption|lia|congruence].
        f_equal. cbn [length]. rewrite Hlen.
        replace (length p + 3 + S (length r))%nat with (length p + S (S (S (S (length r)))))%nat by lia.
        reflexivity.
Qed.

(* characters of a group *)
Lemma uu_chars_vals : forall x, x < 2 ^ 24 ->
  uu_block_chars x = [32 + x / 262144; 32 + x / 4096 mod 64; 32 + x / 64 mod 64; 32 + x mod 64].
Proof.
  intros x Hx. unfold uu_block_chars.
  rewrite (mask_shift x 6 18), (mask_shift x 6 12), (mask_shift x 6 6), (land_low x 6) by reflexivity.
  rewrite !(fun x => land_low x 8 0xFF eq_refl). nb.
  repeat (apply f_equal2; [lia|]). reflexivity.
Qed.

Lemma sub32_char : forall v, v < 64 -> sub32 W32 (32 + v) = v.
Proof. intros. unfold sub32, W32. lia. Qed.

Lemma uu_block_dec : forall v0 v1 v2 v3, v0 < 64 -> v1 < 64 -> v2 < 64 -> v3 < 64 ->
  N.lor (N.lor (N.lor (N.shiftl v0 18 mod W32) (N.shiftl v1 12 mod W32)) (N.shiftl v2 6 mod W32)) v3
  = v0 * 262144 + v1 * 4096 + v2 * 64 + v3.
Proof.
  intros.
  rewrite (N.mod_small (N.shiftl v0 18)) by (rewrite N.shiftl_mul_pow2; unfold W32; nb; lia).
  rewrite (N.mod_small (N.shiftl v1 12)) by (rewrite N.shiftl_mul_pow2; unfold W32; nb; lia).
  rewrite (N.mod_small (N.shiftl v2 6)) by (rewrite N.shiftl_mul_pow2; unfold W32; nb; lia).
  assert (forall x j k, N.shiftl x (j + k) = N.shiftl (N.shiftl x j) k) as shiftl_add
    by (intros; rewrite N.shiftl_shiftl; reflexivity).
  change 18 with (6 + 12). rewrite shiftl_add.
  rewrite <- N.shiftl_lor. rewrite (lor_add v0 v1 6) by (nb; lia).
  change 12 with (6 + 6). rewrite shiftl_add.
  rewrite <- N.shiftl_lor. rewrite (lor_add _ v2 6) by (nb; lia).
  rewrite lor_add by (nb; lia). nb. ring.
Qed.

Lemma uu_emit_bytes : forall a b c n, a < 256 -> b < 256 -> c < 256 ->
  uu_emit (a * 65536 + b * 256 + c) n = firstn (N.to_nat (N.min n 3)) [a; b; c].
Proof.
  intros. unfold uu_emit. f_equal.
  rewrite (mask_shift _ 8 16), (mask_shift _ 8 8), (mask_shift _ 8 0) by reflexivity. nb.
  repeat (apply f_equal2; [lia|]). reflexivity.
Qed.

Lemma uu_groups_step : forall f k n a b c tail, (k < length tail + 4)%nat -> 0 < n ->
  a < 256 -> b < 256 -> c < 256 ->
  uu_decode_groups (S f) k n (uu_block_chars (a * 65536 + b * 256 + c) ++ tail) =
  obind (uu_decode_groups f k (n - N.min n 3) tail)
        (fun '(w, r') => Done (firstn (N.to_nat (N.min n 3)) [a; b; c] ++ w, r')).
Proof.
  intros f k n a b c tail Hk Hn Ha Hb Hc.
  rewrite uu_chars_vals by (nb; lia). cbn [app uu_decode_groups].
  assert ((0 <? n) = true) as -> by lia.
  cbn [length andb].
  replace (Nat.ltb k (S (S (S (S (length tail)))))) with true
    by (symmetry; apply Nat.ltb_lt; lia).
  rewrite !sub32_char by lia.
  rewrite uu_block_dec by lia.
  set (B := _ * 262144 + _ + _ + _).
  assert (B = a * 65536 + b * 256 + c) as -> by (subst B; lia).
  rewrite uu_emit_bytes by assumption. reflexivity.
Qed.

Lemma uu_groups_decode : forall p, octets p -> forall f k tail,
  (length (uu_groups p) <= f)%nat -> (k <= length tail)%nat ->
  uu_decode_groups f k (N.of_nat (length p)) (uu_groups p ++ tail) = Done (p, tail).
Proof.
  induction p as [ | a | a b | a b c r IH ] using list3_ind; intros H f k tail Hf Hk; bytes_inv.
  - cbn [uu_groups app length]. destruct f; reflexivity.
  - cbn [uu_groups length] in *. bev.
    destruct f as [|f]; [cbn in Hf; lia|].
    assert (N.lor (N.shiftl (a * 1 + 0) 16) 257 = a * 65536 + 1 * 256 + 1) as ->.
    { rewrite lor_add by (vm_compute; reflexivity). nb. lia. }
    rewrite uu_groups_step by lia. nb. change (1 - N.min 1 3) with 0.
    change (N.to_nat (N.min 1 3)) with 1%nat.
    destruct f; reflexivity.
  - cbn [uu_groups length] in *. bev.
    destruct f as [|f]; [cbn in Hf; lia|].
    assert (N.lor (N.shiftl (a * 256 + (b * 1 + 0)) 8) 1 = a * 65536 + b * 256 + 1) as ->.
    { rewrite lor_add by (vm_compute; reflexivity). nb. lia. }
    rewrite uu_groups_step by lia. nb. change (2 - N.min 2 3) with 0.
    change (N.to_nat (N.min 2 3)) with 2%nat.
    destruct f; reflexivity.
  - cbn [uu_groups] in *. rewrite app_length in Hf.
    destruct f as [|f]; [cbn in Hf; lia|]. bev.
    replace (a * 65536 + (b * 256 + (c * 1 + 0))) with (a * 65536 + b * 256 + c) by lia.
    rewrite <- app_assoc.
    rewrite uu_groups_step; try assumption.
    + replace (N.of_nat (S (S (S (length r))))) with (N.of_nat (length r) + 3) by lia.
      replace (N.of_nat (length r) + 3 - N.min (N.of_nat (length r) + 3) 3) with (N.of_nat (length r)) by lia.
      replace (N.min (N.of_nat (length r) + 3) 3) with 3 by lia.
      rewrite IH; [|assumption|cbn in Hf; lia|assumption].
      reflexivity.
    + rewrite app_length. lia.
    + cbn [length]. lia.
Qed.

Lemma sub32_64 : forall v, v < 256 -> sub32 W64 (32 + v) = v.
Proof. intros. unfold sub32, W64. lia. Qed.

Lemma uu_groups_head : forall p, octets p -> p <> [] ->
  exists x r, uu_groups p = x :: r /\ 32 <= x.
Proof.
  intros [|a [|b [|c r]]] H Hn; [congruence|..]; cbn [uu_groups]; eexists; eexists;
    (split; [reflexivity|]); match goal with |- 32 <= 32 + ?x => generalize x; intro; lia end.
Qed.

(* an encoded, non empty text starts with a length character and a data character *)
Lemma uu_encode_head : forall l, octets l -> l <> [] ->
  exists n x r, uu_encode_loop [] 0 l = (32 + n) :: x :: r /\ 1 <= n <= 45 /\ 32 <= x.
Proof.
  intros l Hl Hn. pose proof (uu_loop_lines l [] eq_refl) as E. cbn [length app] in E.
  change (uu_groups []) with (@nil N) in E. change (N.of_nat 0) with 0 in E.
  rewrite E; [|lia|assumption]. unfold uu_line, uu_flush.
  assert (firstn 45 l <> []) as Hf by (destruct l; cbn; congruence).
  assert (octets (firstn 45 l)) as Ho by (apply Forall_forall; intros x Hx; 
     apply (proj1 (Forall_forall _ _) Hl); rewrite <- (firstn_skipn 45 l); apply in_or_app; left; exact Hx).
  destruct (uu_groups_head _ Ho Hf) as (x & r & Eg & Hx).
  rewrite Eg. exists (N.of_nat (length (firstn 45 l))). eexists. eexists. cbn [app].
  split; [reflexivity|]. split; [|assumption].
  pose proof (firstn_length 45 l). destruct l; [congruence|]. cbn [length] in *. lia.
Qed.

Definition uu_end : list N := [10; 96; 10].

Lemma uu_decode_loop_ok : forall n l, (length l <= n)%nat -> octets l -> l <> [] ->
  forall fuel, (length (uu_encode_loop [] 0 l) <= fuel)%nat ->
  uu_decode_loop fuel 3 (uu_encode_loop [] 0 l ++ uu_end) = Done l.
Proof.
  induction n as [|n IHn]; intros l Hlen Hl Hn fuel Hf.
  { destruct l; [congruence|cbn in Hlen; lia]. }
  pose proof (uu_loop_lines l [] eq_refl) as E. cbn [length app] in E.
  change (uu_groups []) with (@nil N) in E. change (N.of_nat 0) with 0 in E.
  specialize (E ltac:(lia) Hn). rewrite E in *. clear E.
  set (p := firstn 45 l) in *.
  assert (octets p) as Ho by (apply Forall_forall; intros x Hx;
     apply (proj1 (Forall_forall _ _) Hl); rewrite <- (firstn_skipn 45 l); apply in_or_app; left; exact Hx).
  assert (octets (skipn 45 l)) as Ho2 by (apply Forall_forall; intros x Hx;
     apply (proj1 (Forall_forall _ _) Hl); rewrite <- (firstn_skipn 45 l); apply in_or_app; right; exact Hx).
  assert (length p = Nat.min 45 (length l)) as Hp by apply firstn_length.
  assert (0 < length l)%nat by (destruct l; [congruence|cbn; lia]).
  unfold uu_line, uu_flush in *.
  destruct fuel as [|fuel]; [cbn in Hf; lia|].
  set (more := if (0 + length l <=? 45)%nat then [] else uu_encode_loop [] 0 (skipn 45 l)) in *.
  cbn [app uu_decode_loop].
  set (eol := if (length (uu_groups p) =? 60)%nat then [10] else []) in *.
  assert (((uu_groups p ++ eol) ++ more) ++ uu_end = uu_groups p ++ (eol ++ more ++ uu_end)) as ->.
  { rewrite <- !app_assoc. reflexivity. }
  set (rest := eol ++ more ++ uu_end).
  assert (3 <= length rest)%nat as Hrest.
  { subst rest. rewrite !app_length. cbn [length uu_end]. lia. }
  replace (Nat.ltb 3 (length (32 + N.of_nat (length p) :: uu_groups p ++ rest))) with true
    by (symmetry; apply Nat.ltb_lt; cbn [length]; rewrite app_length; lia).
  rewrite sub32_64 by lia.
  rewrite uu_groups_decode by (try assumption; rewrite ?app_length; lia).
  cbn [obind].
  destruct (Nat.leb_spec (0 + length l) 45) as [Hle|Hgt].
  - (* last line *)
    subst more. cbn [app] in rest.
    assert (p = l) as Hpl by (subst p; apply firstn_all2; lia).
    subst rest eol. destruct (length (uu_groups p) =? 60)%nat.
    + change (uu_skip_eol 3 ([10] ++ uu_end)) with (Done uu_end). cbn [obind].
      assert (uu_decode_loop fuel 3 uu_end = Done []) as -> by (destruct fuel; reflexivity).
      cbn [obind]. rewrite app_nil_r, Hpl. reflexivity.
    + change (uu_skip_eol 3 ([] ++ uu_end)) with (Done [96; 10]). cbn [obind].
      assert (uu_decode_loop fuel 3 [96; 10] = Done []) as -> by (destruct fuel; reflexivity).
      cbn [obind]. rewrite app_nil_r, Hpl. reflexivity.
  - (* full line followed by more *)
    assert (length (uu_groups p) = 60)%nat as H60.
    { rewrite uu_groups_length, Hp. replace (Nat.min 45 (length l)) with 45%nat by lia. reflexivity. }
    assert (rest = 10 :: more ++ uu_end) as Er by (subst rest eol; rewrite H60; reflexivity).
    rewrite Er.
    assert (skipn 45 l <> []) as Hs.
    { intro Hs. apply (f_equal (@length N)) in Hs. rewrite skipn_length in Hs. cbn in Hs. lia. }
    destruct (uu_encode_head _ Ho2 Hs) as (m & x & r & Em & Hm & Hx).
    subst more.
    assert (uu_skip_eol 3 (10 :: uu_encode_loop [] 0 (skipn 45 l) ++ uu_end) =
            Done (uu_encode_loop [] 0 (skipn 45 l) ++ uu_end)) as Esk.
    { rewrite Em. cbn [app uu_skip_eol]. change (10 =? 10) with true. cbv iota. cbn [skipn].
      assert ((32 + m =? 13) = false) as -> by lia.
      assert ((x =? 10) = false) as -> by lia. cbn [orb].
      destruct (Nat.ltb _ _); reflexivity. }
    rewrite Esk. cbn [obind].
    rewrite IHn; try assumption.
    + cbn [obind]. subst p. rewrite firstn_skipn. reflexivity.
    + rewrite skipn_length. lia.
    + cbn [app length] in Hf. rewrite !app_length in Hf. lia.
Qed.

Lemma uu_loop_length : forall n l, (length l <= n)%nat -> l <> [] ->
  (4 * length l <= 3 * length (uu_encode_loop [] 0 l))%nat /\ (2 <= length (uu_encode_loop [] 0 l))%nat.
Proof.
  induction n as [|n IHn]; intros l Hlen Hn.
  { destruct l; [congruence|cbn in Hlen; lia]. }
  pose proof (uu_loop_lines l [] eq_refl) as E. cbn [length app] in E.
  change (uu_groups []) with (@nil N) in E. change (N.of_nat 0) with 0 in E.
  specialize (E ltac:(lia) Hn). rewrite E in *. clear E.
  assert (0 < length l)%nat by (destruct l; [congruence|cbn; lia]).
  unfold uu_line, uu_flush. cbn [app length]. rewrite !app_length, uu_groups_length, firstn_length.
  destruct (Nat.leb_spec (0 + length l) 45) as [Hle|Hgt].
  - split; lia.
  - assert (skipn 45 l <> []) as Hs.
    { intro Hs. apply (f_equal (@length N)) in Hs. rewrite skipn_length in Hs. cbn in Hs. lia. }
    destruct (IHn (skipn 45 l)) as [H1 H2]; [rewrite skipn_length; lia|assumption|].
    rewrite skipn_length in H1. split; lia.
Qed.

Lemma uu_roundtrip : forall l c, octets l -> N.of_nat (length l) < 2 ^ 48 ->
  N.of_nat (length c) < 2 ^ 56 -> uu_encode l = Some c ->
  exists alloc, uu_decode c = Some (Done (alloc, l)) /\ N.of_nat (length l) <= alloc.
Proof.
  intros l c Hl Hb Hcb Hc. unfold uu_encode in Hc. destruct l as [|a0 l0]; [discriminate|].
  assert (uu_encode_loop [] 0 (a0 :: l0) ++ uu_end = c) as Hc' by (unfold uu_end; congruence). clear Hc.
  set (l := a0 :: l0) in *. assert (l <> []) as Hn by (subst l; congruence).
  destruct (uu_loop_length (length l) l (le_n _) Hn) as [Hlen1 Hlen2].
  destruct (uu_encode_head l Hl Hn) as (m & x & r & Em & Hm & Hx).
  unfold uu_decode. rewrite <- Hc' in *. rewrite Em in *. cbn [app] in *.
  set (C := 32 + m :: x :: r ++ uu_end) in *.
  assert (uu_tail C = 3%nat) as ->.
  { unfold uu_tail. subst C. unfold uu_end.
    replace (rev (32 + m :: x :: r ++ [10; 96; 10])) with (10 :: 96 :: 10 :: rev (32 + m :: x :: r)).
    - destruct (rev (32 + m :: x :: r)) eqn:E; [|reflexivity].
      apply (f_equal (@length N)) in E. rewrite rev_length in E. discriminate.
    - rewrite !app_comm_cons, rev_app_distr. reflexivity. }
  eexists. subst C. clear Hc' c.
  replace (32 + m :: x :: r ++ uu_end) with (uu_encode_loop [] 0 l ++ uu_end) by (rewrite Em; reflexivity).
  rewrite (uu_decode_loop_ok (length l)); try assumption; try lia.
  2:{ rewrite app_length. lia. }
  cbn [obind]. split; [reflexivity|].
  rewrite Em. rewrite app_length. cbn [length uu_end].
  rewrite sub32_64 by lia. cbn [length] in *. rewrite app_length in Hcb. cbn [length uu_end] in Hcb.
  change (2 ^ 48) with 281474976710656 in *. change (2 ^ 56) with 72057594037927936 in *.
  unfold W64.
  destruct (N.ltb_spec ((N.of_nat (S (S (length r)) + 3) * 6 / 8 + 18446744073709551616 - 4) mod 18446744073709551616) m); lia.
Qed.

(* characters of the encoding: printable (32..95), newline or '`' *)
Definition uu_charset (c : N) : Prop := 32 <= c <= 96 \/ c = 10.

Lemma uu_block_charset : forall x, Forall uu_charset (uu_block_chars x).
Proof.
  intro x. unfold uu_block_chars.
  rewrite (mask_shift x 6 18), (mask_shift x 6 12), (mask_shift x 6 6), (land_low x 6) by reflexivity.
  rewrite !(fun x => land_low x 8 0xFF eq_refl). nb.
  do 4 (apply Forall_cons; [left; lia|]). apply Forall_nil.
Qed.

Lemma uu_flush_charset : forall n l, n <= 45 -> Forall uu_charset l -> Forall uu_charset (uu_flush n l).
Proof.
  intros n l Hn Hl. unfold uu_flush. constructor; [left; lia|]. apply Forall_app. split; [assumption|].
  destruct (Nat.eqb _ _); [apply Forall_cons; [right; reflexivity|]|]; apply Forall_nil.
Qed.

Lemma uu_groups_charset : forall p, Forall uu_charset (uu_groups p).
Proof.
  induction p as [ | a | a b | a b c r IH ] using list3_ind; cbn [uu_groups];
    try apply uu_block_charset; [constructor|].
  apply Forall_app; split; [apply uu_block_charset|assumption].
Qed.

Lemma uu_loop_charset : forall n l, (length l <= n)%nat -> l <> [] -> Forall uu_charset (uu_encode_loop [] 0 l).
Proof.
  induction n as [|n IHn]; intros l Hlen Hn.
  { destruct l; [congruence|cbn in Hlen; lia]. }
  pose proof (uu_loop_lines l [] eq_refl) as E. cbn [length app] in E.
  change (uu_groups []) with (@nil N) in E. change (N.of_nat 0) with 0 in E.
  specialize (E ltac:(lia) Hn). rewrite E in *. clear E.
  apply Forall_app. split.
  - unfold uu_line. apply uu_flush_charset; [|apply uu_groups_charset].
    rewrite firstn_length. lia.
  - destruct (Nat.leb_spec (0 + length l) 45); [constructor|].
    apply IHn; [rewrite skipn_length; lia|].
    intro Hs. apply (f_equal (@length N)) in Hs. rewrite skipn_length in Hs. cbn in Hs. lia.
Qed.

Lemma uu_encode_charset : forall l c, uu_encode l = Some c -> Forall uu_charset c.
Proof.
  intros l c H. unfold uu_encode in H. destruct l as [|a l]; [discriminate|].
  assert (c = uu_encode_loop [] 0 (a :: l) ++ [10; 96; 10]) as -> by congruence.
  apply Forall_app. split; [apply (uu_loop_charset (length (a :: l))); [lia|congruence]|].
  do 3 (apply Forall_cons; [unfold uu_charset; lia|]). apply Forall_nil.
Qed.
