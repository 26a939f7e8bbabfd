(* Numbers in PEM buffers, for the public key algorithms. *)
From Verif Require Import Words EncModel EncSpec TaskModel MpModel MpSpec MpProofs MpProofs2 PemModel PemSpec PemProofs.
From Verif Require EncProofs64.
Open Scope N_scope.

Definition fits (l : list N) : Prop := N.of_nat (length l) < 2 ^ 60.
Lemma b64_longer : forall d, d <> [] -> (length d <= length (base64_encode_loop d))%nat.
Proof.
  intros d H. pose proof (EncProofs64.base64_alloc_ok d H) as E. unfold base64_encode_alloc in E. assert (N.of_nat (length d) <= N.of_nat (length (base64_encode_loop d))); [|lia]. rewrite E. set (n := N.of_nat (length d)). clearbody n. clear.
  pose proof (N.div_mod' (8 * n) 6). pose proof (N.mod_lt (8 * n) 6 ltac:(discriminate)). set (a := 8 * n / 6) in *. pose proof (N.div_mod' (a + 3) 4). pose proof (N.mod_lt (a + 3) 4 ltac:(discriminate)). lia.
Qed.
Lemma rel_put : forall pem m h d, rel pem m -> good_header h -> m h = None -> octets d -> d <> [] ->
  exists p, pem_put pem h d = (Success, Some p) /\ (fits p -> rel (Some p) (insert m h d)) /\ (fits p -> match pem with Some b => fits b | None => True end).
Proof.
  intros pem m h d R G M O Nd. assert (exists p, pem_put pem h d = (Success, Some p) /\ (length d <= length p)%nat /\ match pem with Some b => (length b <= length p)%nat | None => True end) as (p & E & L & L2).
  { destruct R as (es & -> & A & F). rewrite A in M. unfold pem_put. destruct d as [|x d']; [congruence|]. set (d := x :: d') in *.
    assert (match buffer es with Some p => find_header (begin_mark h) p | None => None end = None) as ->. { destruct es as [|e es]; [reflexivity|]. cbn [buffer]. unfold find_header. rewrite begin_is. apply find_absent; [apply G|apply good_fine; exact F|apply assoc_none; exact M]. }
    assert (base64_encode d = Some (base64_encode_loop d)) as -> by reflexivity. eexists. split; [reflexivity|]. pose proof (b64_longer d Nd). rewrite !app_length. split; [lia|]. destruct es; cbn [buffer]; [exact I|lia]. }
  exists p. split; [exact E|]. split.
  - intro Fp. assert (good_data d) as Gd by (split; [exact O|split; [exact Nd|unfold fits in Fp; lia]]). destruct (put_ok pem m h d R G Gd) as [_ R2]. rewrite E in R2. unfold map_put in R2. rewrite M in R2. exact R2.
  - intro Fp. destruct pem as [b|]; [unfold fits in *; lia|exact I].
Qed.
Lemma image_octets : forall a, octets (mp_image a).
Proof. intro a. apply (proj2 (CipherLib.octets_bytes _)). unfold mp_image. induction (data a) as [|d l IH]; [constructor|]. cbn [map concat]. apply Forall_app. split; [apply CipherLib.le_bytes_bytes|exact IH]. Qed.
Lemma image_ne : forall a, well_formed a -> mp_image a <> [].
Proof. intros a W E. pose proof (wf_size a W). apply (f_equal (@length N)) in E. rewrite image_length in E. cbn [length] in E. lia. Qed.
Lemma rel_put_mp : forall pem m h a, rel pem m -> good_header h -> m h = None -> well_formed a ->
  exists p, pem_put_mp pem h a = (Success, Some p) /\ (fits p -> rel (Some p) (insert m h (mp_image a))) /\ (fits p -> match pem with Some b => fits b | None => True end).
Proof. intros pem m h a R G M W. apply rel_put; try assumption; [apply image_octets|apply image_ne; exact W]. Qed.
Lemma get_mp_ok : forall pem m h a, rel pem m -> good_header h -> m h = Some (mp_image a) -> pos a -> pem_get_mp h pem = Done (Some a).
Proof. intros pem m h a R G M [W Na]. unfold pem_get_mp. rewrite (get_ok pem m h R G), M. cbn [obind]. rewrite image_digits by exact W. destruct a as [s l]. cbn in Na. subst s. reflexivity. Qed.
Lemma get_mp_none : forall pem m h, rel pem m -> good_header h -> m h = None -> pem_get_mp h pem = Done None.
Proof. intros pem m h R G M. unfold pem_get_mp. rewrite (get_ok pem m h R G), M. reflexivity. Qed.
Lemma header_ok : forall l, forallb (fun x => (x <? 256) && negb (x =? 0) && negb (x =? 45))%bool l = true -> good_header l.
Proof.
  intros l H. rewrite forallb_forall in H. unfold good_header, octets. rewrite Forall_forall. split; [|split]; [intros x Hx|intro Hx|intro Hx]; specialize (H _ Hx); [|discriminate|discriminate]. apply andb_prop in H. destruct H as [H _]. apply andb_prop in H. apply N.ltb_lt. apply H.
Qed.
Lemma insert_same : forall m h d, insert m h d h = Some d.
Proof. intros m h d. unfold insert. assert (eqb_header h h = true) as -> by (apply eqb_header_spec; reflexivity). reflexivity. Qed.
Lemma insert_other : forall m h h' d, h <> h' -> insert m h d h' = m h'.
Proof. intros m h h' d H. unfold insert. destruct (eqb_header h h') eqn:E; [apply eqb_header_spec in E; contradiction|reflexivity]. Qed.
(* what pem_get_mp returns is always a nonnegative value *)
Lemma digits_wf : forall l, octets l -> digits_of_bytes l <> [] /\ Forall (fun d => d < 2 ^ 64) (digits_of_bytes l).
Proof.
  intros l O. unfold digits_of_bytes. set (l' := l ++ _). assert (length l' mod 8 = 0 /\ length l' <> 0)%nat as [M Z].
  { unfold l'. rewrite app_length, repeat_length. destruct (Nat.eqb_spec (length l) 0) as [E|E].
    - rewrite E. cbn. split; [reflexivity|discriminate].
    - rewrite Nat.add_0_r. split; [|lia]. pose proof (Nat.div_mod (length l) 8 ltac:(discriminate)) as D. pose proof (Nat.mod_upper_bound (length l) 8 ltac:(discriminate)) as U. set (r := (length l mod 8)%nat) in *. destruct (Nat.eq_dec r 0) as [R|R]; [rewrite R; change ((8 - 0) mod 8)%nat with 0%nat; rewrite Nat.add_0_r; exact R|]. rewrite (Nat.mod_small (8 - r)) by lia. replace (length l + (8 - r))%nat with ((length l / 8 + 1) * 8)%nat by lia. apply Nat.mod_mul. discriminate. }
  assert (octets l') as O'. { unfold l'. apply Forall_app. split; [exact O|]. apply Forall_forall. intros x Hx. apply repeat_spec in Hx. subst. reflexivity. }
  clearbody l'. clear l O. assert (exists k, length l' = (8 * S k)%nat) as [k K]. { pose proof (Nat.div_mod (length l') 8 ltac:(discriminate)) as D. rewrite M in D. exists (length l' / 8 - 1)%nat. destruct (length l' / 8)%nat; lia. }
  clear M Z. revert l' O' K. induction k as [|k IH]; intros l' O' K.
  - rewrite (HashProofs.chunks_one 8 l') by lia. cbn [map]. split; [discriminate|]. constructor; [|constructor]. pose proof (CipherLib.le_val_lt l' (proj1 (CipherLib.octets_bytes _) O')) as L. rewrite K in L. exact L.
  - rewrite <- (firstn_skipn 8 l'). assert (length (firstn 8 l') = 8)%nat as L8 by (rewrite firstn_length; lia). rewrite HashProofs.chunks_app by lia. cbn [map]. split; [discriminate|]. assert (octets (firstn 8 l')) as O8 by (rewrite <- (firstn_skipn 8 l') in O'; apply Forall_app in O'; apply O'). assert (octets (skipn 8 l')) as O9 by (rewrite <- (firstn_skipn 8 l') in O'; apply Forall_app in O'; apply O').
    constructor.
    + pose proof (CipherLib.le_val_lt _ (proj1 (CipherLib.octets_bytes _) O8)) as L. rewrite L8 in L. exact L.
    + apply IH; [exact O9|rewrite skipn_length; lia].
Qed.
Lemma land255 : forall x, N.land x 255 < 256.
Proof. intro x. change 255 with (N.ones 8). rewrite N.land_ones. apply N.mod_lt. discriminate. Qed.
Lemma decode_loop_octets : forall n l left w, (length l <= n)%nat -> base64_decode_loop left l = Done w -> octets w.
Proof.
  induction n as [|n IH]; intros l left w L E.
  - destruct l; [|cbn [length] in L; lia]. cbn [base64_decode_loop] in E. destruct (left =? 0); injection E as <-; constructor.
  - destruct l as [|c0 [|c1 [|c2 [|c3 r]]]]; cbn [base64_decode_loop] in E; destruct (left =? 0); try discriminate; try (injection E as <-; constructor).
    destruct (rd EncTables.base64_state_1 (eq_to_nul c0)) as [v0|]; [|discriminate]. cbn [obind] in E. destruct (rd EncTables.base64_state_1 (eq_to_nul c1)) as [v1|]; [|discriminate]. cbn [obind] in E. destruct (rd EncTables.base64_state_1 (eq_to_nul c2)) as [v2|]; [|discriminate]. cbn [obind] in E. destruct (rd EncTables.base64_state_1 (eq_to_nul c3)) as [v3|]; [|discriminate]. cbn [obind] in E. cbv zeta in E.
    destruct (left =? 1); [injection E as <-; constructor; [apply land255|constructor]|]. destruct (left =? 2); [injection E as <-; constructor; [apply land255|constructor; [apply land255|constructor]]|].
    destruct (base64_decode_loop (left - 3) r) as [w'|] eqn:Er; [|discriminate]. cbn [obind] in E. injection E as <-. constructor; [apply land255|]. constructor; [apply land255|]. constructor; [apply land255|]. apply (IH r (left - 3) w'); [cbn [length] in L; lia|exact Er].
Qed.
Lemma get_octets : forall h pem l, pem_get h pem = Done (Some l) -> octets l.
Proof.
  intros h pem l E. unfold pem_get in E. destruct pem as [[|x b]|]; try discriminate. destruct (find_header (begin_mark h) (x :: b)) as [p1|]; [|discriminate]. destruct (find_header (end_mark h) (x :: b)) as [p2|]; [|discriminate]. destruct (Nat.ltb p2 _); [discriminate|]. cbv zeta in E. destruct (Nat.ltb _ p1); [discriminate|].
  unfold base64_decode in E. set (t := firstn _ _) in E. clearbody t. destruct t as [|y t]; [discriminate|]. set (s := y :: t) in E. clearbody s. destruct (base64_count_pad (rev s)) as [pad|]; [|discriminate]. cbn [obind] in E. cbv zeta in E. set (o := (_ mod W64)) in E. clearbody o. destruct (base64_decode_loop o s) as [w|] eqn:Ew; [|discriminate]. cbn [obind] in E. injection E as <-.
  apply Forall_app. split; [apply (decode_loop_octets (length s) s o w); [lia|exact Ew]|]. apply Forall_forall. intros z Hz. apply repeat_spec in Hz. subst. reflexivity.
Qed.
Lemma get_mp_pos : forall h pem a, pem_get_mp h pem = Done (Some a) -> pos a.
Proof.
  intros h pem a E. unfold pem_get_mp in E. destruct (pem_get h pem) as [[l|]|] eqn:G; cbn [obind] in E; try discriminate. injection E as <-. split; [|reflexivity]. exact (digits_wf l (get_octets h pem l G)).
Qed.

Lemma b64_bound : forall d, (length (base64_encode_loop d) <= 2 * length d + 4)%nat.
Proof. intro d. rewrite EncProofs64.base64_encode_loop_length. pose proof (Nat.div_mod (length d + 2) 3 ltac:(discriminate)). lia. Qed.
Lemma one_fits : forall h a p, (length h <= 20)%nat -> well_formed a -> N.of_nat (size a) < 2 ^ 55 -> pem_put_mp None h a = (Success, Some p) -> fits p.
Proof.
  intros h a p Lh W Sa E. unfold pem_put_mp, pem_put in E. destruct (mp_image a) as [|x l] eqn:I; [discriminate|]. rewrite <- I in E. assert (base64_encode (mp_image a) = Some (base64_encode_loop (mp_image a))) as X by (rewrite I; reflexivity). rewrite X in E. injection E as <-. pose proof (b64_bound (mp_image a)) as L. rewrite image_length in L. unfold fits. cbn [length]. rewrite !app_length. cbn [length]. assert (length sfx <= 40 /\ length (end_mark h) <= 40)%nat as [L1 L2] by (unfold end_mark; rewrite !app_length; split; cbn; lia).
  change (2 ^ 60) with (32 * 2 ^ 55). assert (1000 <= 2 ^ 55) by (vm_compute; discriminate). set (b := 2 ^ 55) in *. clearbody b. set (t := length (base64_encode_loop (mp_image a))) in *. clearbody t. lia.
Qed.
