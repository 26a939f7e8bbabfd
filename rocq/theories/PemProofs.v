From Verif Require Import Words EncModel EncSpec TaskModel MpModel MpSpec MpProofs PemModel PemSpec.
From Verif Require EncProofs64 CipherLib HashProofs.
From Verif Require Import EncTables.
Open Scope N_scope.

Definition nodash (l : list N) : Prop := ~ In 45 l.
Definition dashes : list N := [45; 45; 45; 45; 45].
(* marks: five dashes, a core without dashes, five dashes, a newline *)
Definition mark (c : list N) : list N := dashes ++ c ++ sfx.
Definition bcore (h : list N) : list N := [66; 69; 71; 73; 78; 32] ++ h.
Definition ecore (h : list N) : list N := [69; 78; 68; 32] ++ h.
Lemma begin_is : forall h, begin_mark h = mark (bcore h). Proof. reflexivity. Qed.
Lemma end_is : forall h, end_mark h = mark (ecore h). Proof. reflexivity. Qed.
Definition core_ok (c : list N) : Prop := nodash c /\ match c with k :: _ => k <> 10 | [] => False end.
Lemma bcore_ok : forall h, nodash h -> core_ok (bcore h).
Proof. intros h H. split; [|discriminate]. unfold nodash, bcore. cbn [app In]. intro E. repeat (destruct E as [E|E]; [discriminate E|]). exact (H E). Qed.
Lemma ecore_ok : forall h, nodash h -> core_ok (ecore h).
Proof. intros h H. split; [|discriminate]. unfold nodash, ecore. cbn [app In]. intro E. repeat (destruct E as [E|E]; [discriminate E|]). exact (H E). Qed.

Section Scan.
  Variable o : list N.
  Hypothesis O : core_ok o.
  Let m := mark o.
  Let go (l : list N) (pos : nat) := find_from m m l pos.
  Lemma step_other : forall b l pos, b <> 45 -> go (b :: l) pos = go l (S pos).
  Proof. intros b l pos H. unfold go, m, mark. cbn [dashes app find_from]. destruct (N.eqb_spec 45 b); [congruence|reflexivity]. Qed.
  Lemma skip_text : forall t l pos, nodash t -> go (t ++ l) pos = go l (pos + length t).
  Proof.
    induction t as [|b t IH]; intros l pos H; cbn [app length]; [f_equal; lia|]. rewrite step_other by (intro E; apply H; left; exact E). rewrite IH by (intro E; apply H; right; exact E). f_equal. lia.
  Qed.
  Lemma skip_sfx : forall l pos, go (sfx ++ l) pos = go l (pos + 6).
  Proof.
    intros l pos. unfold go, m, mark. destruct O as [D K]. destruct o as [|k o']; [contradiction|]. cbn [dashes sfx app find_from]. rewrite !N.eqb_refl. destruct (N.eqb_spec k 10); [contradiction|]. f_equal. lia.
  Qed.
  Lemma compare_cores : forall c' c l pos, nodash c -> nodash c' -> c <> c' -> find_from m (c ++ sfx) (c' ++ sfx ++ l) pos = go l (pos + length c' + 6).
  Proof.
    induction c' as [|y c' IH]; intros c l pos D D' Ne.
    - destruct c as [|x c]; [congruence|]. cbn [app sfx find_from length]. destruct (N.eqb_spec x 45) as [E|_]; [exfalso; apply D; left; exact E|]. change (find_from m m (45 :: 45 :: 45 :: 45 :: 10 :: l) (S pos) = go l (pos + 0 + 6)). unfold go, m, mark. cbn [dashes app find_from]. rewrite !N.eqb_refl. change (45 =? 10) with false. cbv iota. f_equal. lia.
    - assert (y <> 45) as Y by (intro E; apply D'; left; exact E). assert (nodash c') as D2 by (intro E; apply D'; right; exact E). assert (go (c' ++ sfx ++ l) (S pos) = go l (pos + length (y :: c') + 6)) as R by (rewrite skip_text, skip_sfx by exact D2; f_equal; cbn [length]; lia).
      destruct c as [|x c].
      + cbn [app sfx find_from]. destruct (N.eqb_spec 45 y) as [E|_]; [congruence|]. exact R.
      + cbn [app find_from]. destruct (N.eqb_spec x y) as [E|_]; [|exact R]. subst y. destruct (c ++ sfx) eqn:Q; [apply app_eq_nil in Q; destruct Q; discriminate|]. rewrite <- Q. rewrite IH; [f_equal; cbn [length]; lia|intro E; apply D; right; exact E|exact D2|congruence].
  Qed.
  Lemma skip_mark : forall c l pos, nodash c -> c <> o -> go (mark c ++ l) pos = go l (pos + length (mark c)).
  Proof.
    intros c l pos D Ne. unfold mark at 1. rewrite <- app_assoc, <- app_assoc. unfold go at 1. unfold m at 2. unfold mark at 1. cbn [dashes app find_from]. rewrite !N.eqb_refl. destruct (o ++ sfx) eqn:Q; [apply app_eq_nil in Q; destruct Q; discriminate|]. rewrite <- Q, compare_cores; [|apply O|exact D|congruence]. f_equal. unfold mark. rewrite !app_length. cbn. lia.
  Qed.
  Lemma hit : forall c l pos, c <> [] -> find_from m c (c ++ l) pos = Some (pos + length c)%nat.
  Proof.
    induction c as [|x c IH]; intros l pos H; [congruence|]. cbn [app find_from length]. rewrite N.eqb_refl. destruct c as [|y c]; [cbn [length]; f_equal; lia|]. rewrite IH by discriminate. f_equal. lia.
  Qed.
  Lemma find_hit : forall l pos, go (m ++ l) pos = Some (pos + length m)%nat.
  Proof. intros l pos. apply hit. discriminate. Qed.
End Scan.

(* ---- Base64 text has no dash *)
Lemma tbl64 : forall i, nthN base64_state i <> 45.
Proof.
  intro i. unfold nthN. destruct (Nat.lt_ge_cases (N.to_nat i) (length base64_state)) as [H|H].
  - assert (forallb (fun x => negb (x =? 45)) base64_state = true) as F by (vm_compute; reflexivity). rewrite forallb_forall in F. specialize (F _ (nth_In _ 0 H)). intro E. rewrite E in F. discriminate.
  - rewrite nth_overflow by exact H. discriminate.
Qed.
Lemma put_pad_in : forall n l x, In x (put_pad n l) -> In x l \/ x = 61.
Proof. intros n l x H. unfold put_pad in H. apply in_app_or in H. destruct H as [H|H]; [left; rewrite <- (firstn_skipn (length l - n) l); apply in_or_app; left; exact H|right; apply repeat_spec in H; exact H]. Qed.
Lemma b64_nodash : forall l, nodash (base64_encode_loop l).
Proof.
  assert (forall b x, In x (base64_block_chars b) -> x <> 45) as C by (intros b x H; cbn [base64_block_chars In] in H; repeat (destruct H as [<-|H]; [apply tbl64|]); contradiction).
  intro l. remember (length l) as n eqn:En. assert (length l <= n)%nat as L by lia. clear En. revert l L. induction n as [|n IH]; intros l L; destruct l as [|a [|b [|c r]]]; cbn [length] in L; try lia; cbn [base64_encode_loop]; intro H; try contradiction.
  - apply put_pad_in in H. destruct H as [H|H]; [apply C in H; congruence|discriminate].
  - apply put_pad_in in H. destruct H as [H|H]; [apply C in H; congruence|discriminate].
  - apply in_app_or in H. destruct H as [H|H]; [apply C in H; congruence|]. revert H. apply IH. lia.
Qed.

(* ---- the buffer of a list of entries *)
Definition entry (e : list N * list N) : list N := let '(h, d) := e in mark (bcore h) ++ base64_encode_loop d ++ [10] ++ mark (ecore h).
Definition render (es : list (list N * list N)) : list N := concat (map entry es).
Definition fine (es : list (list N * list N)) : Prop := Forall (fun e => nodash (fst e)) es.
Lemma skip_entry_b : forall h h' d l pos, nodash h -> nodash h' -> h <> h' -> find_from (mark (bcore h)) (mark (bcore h)) (entry (h', d) ++ l) pos = find_from (mark (bcore h)) (mark (bcore h)) l (pos + length (entry (h', d))).
Proof.
  intros h h' d l pos D D' Ne. unfold entry. rewrite <- !app_assoc. rewrite (skip_mark (bcore h) (bcore_ok h D)); [|apply bcore_ok; exact D'|intro E; apply app_inv_head in E; congruence]. rewrite (skip_text (bcore h) (base64_encode_loop d)) by apply b64_nodash. cbn [app]. rewrite (step_other (bcore h)) by discriminate. rewrite (skip_mark (bcore h) (bcore_ok h D)); [|apply ecore_ok; exact D'|discriminate]. f_equal. rewrite !app_length. cbn [length]. lia.
Qed.
Lemma skip_entry_e : forall h h' d l pos, nodash h -> nodash h' -> h <> h' -> find_from (mark (ecore h)) (mark (ecore h)) (entry (h', d) ++ l) pos = find_from (mark (ecore h)) (mark (ecore h)) l (pos + length (entry (h', d))).
Proof.
  intros h h' d l pos D D' Ne. unfold entry. rewrite <- !app_assoc. rewrite (skip_mark (ecore h) (ecore_ok h D)); [|apply bcore_ok; exact D'|discriminate]. rewrite (skip_text (ecore h) (base64_encode_loop d)) by apply b64_nodash. cbn [app]. rewrite (step_other (ecore h)) by discriminate. rewrite (skip_mark (ecore h) (ecore_ok h D)); [|apply ecore_ok; exact D'|intro E; apply app_inv_head in E; congruence]. f_equal. rewrite !app_length. cbn [length]. lia.
Qed.
Lemma find_absent : forall es h pos, nodash h -> fine es -> ~ In h (map fst es) -> find_from (mark (bcore h)) (mark (bcore h)) (render es) pos = None.
Proof.
  induction es as [|[h' d] es IH]; intros h pos D F A; [reflexivity|]. change (render ((h', d) :: es)) with (entry (h', d) ++ render es). inversion F as [|? ? F1 F2]. cbn [map In fst] in *. rewrite skip_entry_b by (try assumption; intro E; apply A; left; symmetry; exact E). apply IH; try assumption. intro E. apply A. right. exact E.
Qed.
Lemma find_begin : forall pre h d post pos, nodash h -> fine pre -> ~ In h (map fst pre) -> find_from (mark (bcore h)) (mark (bcore h)) (render (pre ++ (h, d) :: post)) pos = Some (pos + length (render pre) + length (mark (bcore h)))%nat.
Proof.
  induction pre as [|[h' d'] pre IH]; intros h d post pos D F A.
  - cbn [app]. change (render ((h, d) :: post)) with (entry (h, d) ++ render post). unfold entry. rewrite <- app_assoc, (find_hit (bcore h)). f_equal. cbn. lia.
  - change (render (((h', d') :: pre) ++ (h, d) :: post)) with (entry (h', d') ++ render (pre ++ (h, d) :: post)). inversion F as [|? ? F1 F2]. cbn [map In fst] in *. rewrite skip_entry_b by (try assumption; intro E; apply A; left; symmetry; exact E). rewrite IH by (try assumption; intro E; apply A; right; exact E). f_equal. change (render ((h', d') :: pre)) with (entry (h', d') ++ render pre). rewrite app_length. lia.
Qed.
Lemma find_end : forall pre h d post pos, nodash h -> fine pre -> ~ In h (map fst pre) -> find_from (mark (ecore h)) (mark (ecore h)) (render (pre ++ (h, d) :: post)) pos = Some (pos + length (render pre) + length (entry (h, d)))%nat.
Proof.
  induction pre as [|[h' d'] pre IH]; intros h d post pos D F A.
  - cbn [app]. change (render ((h, d) :: post)) with (entry (h, d) ++ render post). unfold entry at 1. rewrite <- !app_assoc. rewrite (skip_mark (ecore h) (ecore_ok h D)); [|apply bcore_ok; exact D|discriminate]. rewrite (skip_text (ecore h) (base64_encode_loop d)) by apply b64_nodash. cbn [app]. rewrite (step_other (ecore h)) by discriminate. rewrite (find_hit (ecore h)). f_equal. unfold entry. rewrite !app_length. cbn [length render map concat]. lia.
  - change (render (((h', d') :: pre) ++ (h, d) :: post)) with (entry (h', d') ++ render (pre ++ (h, d) :: post)). inversion F as [|? ? F1 F2]. cbn [map In fst] in *. rewrite skip_entry_e by (try assumption; intro E; apply A; left; symmetry; exact E). rewrite IH by (try assumption; intro E; apply A; right; exact E). f_equal. change (render ((h', d') :: pre)) with (entry (h', d') ++ render pre). rewrite app_length. lia.
Qed.
(* ---- refinement *)
Fixpoint assoc (es : list (list N * list N)) (h : list N) : option (list N) :=
  match es with [] => None | (h', d) :: es => if eqb_header h' h then Some d else assoc es h end.
Lemma eqb_header_spec : forall a b, eqb_header a b = true <-> a = b.
Proof. intros a b. unfold eqb_header. destruct (list_eq_dec N.eq_dec a b); split; congruence. Qed.
Lemma assoc_none : forall es h, assoc es h = None <-> ~ In h (map fst es).
Proof.
  induction es as [|[h' d] es IH]; intro h; cbn [assoc map fst In]; [intuition|]. destruct (eqb_header h' h) eqn:E; [apply eqb_header_spec in E; split; [discriminate|intro H; exfalso; apply H; left; exact E]|].
  rewrite IH. split; [intros H [C|C]; [apply eqb_header_spec in C; congruence|contradiction]|intros H C; apply H; right; exact C].
Qed.
Lemma assoc_some : forall es h d, assoc es h = Some d -> exists pre post, es = pre ++ (h, d) :: post /\ ~ In h (map fst pre).
Proof.
  induction es as [|[h' d'] es IH]; intros h d H; cbn [assoc] in H; [discriminate|]. destruct (eqb_header h' h) eqn:E.
  - apply eqb_header_spec in E. injection H as <-. subst h'. exists [], es. split; [reflexivity|intros []].
  - destruct (IH h d H) as (pre & post & -> & A). exists ((h', d') :: pre), post. split; [reflexivity|]. cbn [map fst In]. intros [C|C]; [apply eqb_header_spec in C; congruence|contradiction].
Qed.
Definition buffer (es : list (list N * list N)) : option (list N) := match es with [] => None | _ => Some (render es) end.
Definition rel (pem : option (list N)) (m : pem_map) : Prop := exists es, pem = buffer es /\ (forall h, m h = assoc es h) /\ Forall (fun e => good_header (fst e) /\ good_data (snd e)) es.
Lemma good_fine : forall es, Forall (fun e : list N * list N => good_header (fst e) /\ good_data (snd e)) es -> fine es.
Proof. intros es H. unfold fine. apply Forall_forall. rewrite Forall_forall in H. intros e He. apply (H e He). Qed.
Lemma assoc_snoc : forall es h d h', assoc es h = None -> assoc (es ++ [(h, d)]) h' = if eqb_header h h' then Some d else assoc es h'.
Proof.
  induction es as [|[k v] es IH]; intros h d h' H; cbn [app assoc] in *; [reflexivity|]. destruct (eqb_header k h) eqn:E; [discriminate|]. rewrite IH by exact H. destruct (eqb_header k h') eqn:E2; [|reflexivity]. destruct (eqb_header h h') eqn:E3; [|reflexivity]. apply eqb_header_spec in E2, E3. subst. assert (eqb_header h' h' = true) by (apply eqb_header_spec; reflexivity). congruence.
Qed.
Lemma put_ok : forall pem m h d, rel pem m -> good_header h -> good_data d -> fst (pem_put pem h d) = fst (map_put m h d) /\ rel (snd (pem_put pem h d)) (snd (map_put m h d)).
Proof.
  intros pem m h d (es & -> & M & F) Gh Gd. unfold pem_put, map_put. rewrite M. destruct d as [|d0 d']; [destruct Gd as (_ & C & _); congruence|]. set (d := d0 :: d') in *.
  assert (nodash h) as D by apply Gh. assert (base64_encode d = Some (base64_encode_loop d)) as Eb by reflexivity. rewrite Eb. clear Eb.
  destruct (assoc es h) as [v|] eqn:A.
  - destruct (assoc_some es h v A) as (pre & post & E & Np). assert (buffer es = Some (render es)) as -> by (subst es; destruct pre; reflexivity). unfold find_header. rewrite begin_is, E, find_begin; [|exact D| |exact Np]. { cbn [fst snd]. split; [reflexivity|]. exists es. rewrite <- E. split; [subst es; destruct pre; reflexivity|]. split; [exact M|exact F]. }
    apply good_fine in F. unfold fine in *. rewrite E in F. apply Forall_app in F. apply F.
  - assert (match buffer es with Some p => find_header (begin_mark h) p | None => None end = None) as ->. { destruct es as [|e es]; [reflexivity|]. cbn [buffer]. unfold find_header. rewrite begin_is. apply find_absent; [exact D|apply good_fine; exact F|apply assoc_none; exact A]. }
    cbn [fst snd]. split; [reflexivity|]. exists (es ++ [(h, d)]). split; [|split].
    + rewrite begin_is, end_is. assert (buffer (es ++ [(h, d)]) = Some (render (es ++ [(h, d)]))) as -> by (destruct es; reflexivity). f_equal. unfold render. rewrite map_app, concat_app. cbn [map concat]. rewrite app_nil_r. f_equal. destruct es; reflexivity.
    + intro h'. unfold insert. rewrite assoc_snoc by exact A. rewrite M. reflexivity.
    + apply Forall_app. split; [exact F|]. constructor; [split; assumption|constructor].
Qed.
Lemma get_ok : forall pem m h, rel pem m -> good_header h -> pem_get h pem = Done (m h).
Proof.
  intros pem m h (es & -> & M & F) Gh. rewrite M. assert (nodash h) as D by apply Gh. destruct (assoc es h) as [d|] eqn:A.
  - destruct (assoc_some es h d A) as (pre & post & E & Np). assert (buffer es = Some (render es)) as -> by (subst es; destruct pre; reflexivity). assert (fine pre) as Fp by (apply good_fine in F; unfold fine in *; rewrite E in F; apply Forall_app in F; apply F). assert (good_data d) as Gd by (rewrite E in F; apply Forall_app in F; destruct F as [_ F]; inversion F as [|? ? Hx]; apply Hx).
    rewrite E. assert (render (pre ++ (h, d) :: post) = render pre ++ mark (bcore h) ++ base64_encode_loop d ++ [10] ++ mark (ecore h) ++ render post) as R by (unfold render; rewrite map_app, concat_app; cbn [map concat entry]; rewrite <- !app_assoc; reflexivity).
    pose proof (find_begin pre h d post 0 D Fp Np) as Hb. pose proof (find_end pre h d post 0 D Fp Np) as He. unfold pem_get. rewrite end_is, begin_is. unfold find_header. rewrite Hb, He. cbn [Nat.add].
    assert (length (entry (h, d)) = length (mark (bcore h)) + (length (base64_encode_loop d) + (1 + length (mark (ecore h)))))%nat as Le by (unfold entry; rewrite !app_length; reflexivity). rewrite Le. set (p := length (render pre)). set (b := length (mark (bcore h))). set (e := length (mark (ecore h))). set (k := length (base64_encode_loop d)).
    assert (Nat.ltb (p + (b + (k + (1 + e)))) (e + 1) = false) as -> by (apply Nat.ltb_ge; lia). replace (p + (b + (k + (1 + e))) - (e + 1))%nat with (p + b + k)%nat by lia. assert (Nat.ltb (p + b + k) (p + b) = false) as -> by (apply Nat.ltb_ge; lia). replace (p + b + k - (p + b))%nat with k by lia.
    assert (render (pre ++ (h, d) :: post) <> []) as Nn by (rewrite R; destruct (render pre); discriminate). clear Hb He. set (buf := render (pre ++ (h, d) :: post)) in *. clearbody buf. destruct buf as [|x xs]; [congruence|]. rewrite R. assert (skipn (p + b) (render pre ++ mark (bcore h) ++ base64_encode_loop d ++ [10] ++ mark (ecore h) ++ render post) = base64_encode_loop d ++ [10] ++ mark (ecore h) ++ render post) as ->. { rewrite app_assoc. apply CipherLib.skipn_exact. rewrite app_length. reflexivity. }
    rewrite (CipherLib.firstn_exact _ (base64_encode_loop d)) by reflexivity. destruct Gd as (Od & Nd & Ld). rewrite (EncProofs64.base64_roundtrip d (base64_encode_loop d)); [|exact Od|exact Ld|destruct d; [congruence|reflexivity]]. cbn [obind]. rewrite Nat2N.id, Nat.sub_diag. cbn [repeat]. rewrite app_nil_r. reflexivity.
  - destruct es as [|e es]; [reflexivity|]. cbn [buffer]. unfold pem_get, find_header. rewrite begin_is, find_absent; [destruct (render (e :: es)); reflexivity|exact D|apply good_fine; exact F|apply assoc_none; exact A].
Qed.
Lemma run_ok : forall ops pem m, rel pem m -> Forall (fun e => good_header (fst e) /\ good_data (snd e)) ops -> fst (run pem_put pem ops) = fst (run map_put m ops) /\ rel (snd (run pem_put pem ops)) (snd (run map_put m ops)).
Proof.
  induction ops as [|[h d] ops IH]; intros pem m R F; [split; [reflexivity|exact R]|]. inversion F as [|? ? [Gh Gd] F2]. cbn [fst snd] in *. cbn [run]. destruct (put_ok pem m h d R Gh Gd) as [E1 R1]. destruct (pem_put pem h d) as [r1 p1]. destruct (map_put m h d) as [r2 m2]. cbn [fst snd] in *. destruct (IH p1 m2 R1 F2) as [E2 R2]. destruct (run pem_put p1 ops) as [rs1 q1]. destruct (run map_put m2 ops) as [rs2 q2]. cbn [fst snd] in *. split; [congruence|exact R2].
Qed.
Lemma rel_empty : rel None empty_map.
Proof. exists []. split; [reflexivity|]. split; [reflexivity|constructor]. Qed.
(* ---- multiprecision values *)
Lemma image_length : forall a, length (mp_image a) = (8 * size a)%nat.
Proof. intro a. unfold mp_image, size. induction (data a) as [|d l IH]; [reflexivity|]. cbn [map concat]. rewrite app_length, CipherLib.le_bytes_length, IH. cbn [length]. lia. Qed.
Lemma image_digits : forall a, well_formed a -> digits_of_bytes (mp_image a) = data a.
Proof.
  intros a W. pose proof (wf_size a W) as S1. unfold digits_of_bytes. rewrite image_length. replace (8 * size a)%nat with (size a * 8)%nat at 1 by lia. rewrite Nat.mod_mul by discriminate. assert (Nat.eqb (8 * size a) 0 = false) as -> by (apply Nat.eqb_neq; lia). change ((8 - 0) mod 8 + 0)%nat with 0%nat. cbn [repeat]. unfold mp_image.
  rewrite HashProofs.chunks_concat; [|lia|intros b Hb; apply in_map_iff in Hb; destruct Hb as (x & <- & _); apply CipherLib.le_bytes_length]. change (chunks 8 []) with (@nil (list N)). rewrite app_nil_r, map_map. rewrite <- (map_id (data a)) at 2. apply map_ext_in. intros d Hd. apply CipherLib.le_val_bytes. destruct W as [_ W]. rewrite Forall_forall in W. exact (W d Hd).
Qed.
Lemma image_good : forall a, well_formed a -> N.of_nat (size a) < 2 ^ 57 -> good_data (mp_image a).
Proof.
  intros a W L. pose proof (wf_size a W). split; [|split].
  - apply (proj2 (CipherLib.octets_bytes _)). unfold mp_image. induction (data a) as [|d l IH]; [constructor|]. cbn [map concat]. apply Forall_app. split; [apply CipherLib.le_bytes_bytes|exact IH].
  - intro E. apply (f_equal (@length N)) in E. rewrite image_length in E. cbn [length] in E. lia.
  - rewrite image_length, Nat2N.inj_mul. change (2 ^ 60) with (N.of_nat 8 * 2 ^ 57). apply N.mul_lt_mono_pos_l; [reflexivity|exact L].
Qed.
Lemma find_no_end : forall h d, nodash h -> find_header (end_mark h) (begin_mark h ++ base64_encode_loop d) = None.
Proof.
  intros h d D. unfold find_header. rewrite end_is, begin_is, (skip_mark (ecore h) (ecore_ok h D)); [|apply bcore_ok; exact D|discriminate]. rewrite <- (app_nil_r (base64_encode_loop d)). rewrite (skip_text (ecore h) (base64_encode_loop d)) by apply b64_nodash. reflexivity.
Qed.
Lemma truncated_ub : forall h d, good_header h -> good_data d -> pem_get h (Some (begin_mark h ++ rfc_base64 d)) = UB.
Proof.
  intros h d G (O & Nd & _). assert (rfc_base64 d = base64_encode_loop d) as ->. { pose proof (EncProofs64.base64_encode_spec d O Nd) as E. unfold base64_encode in E. destruct d; [congruence|]. injection E as E. symmetry. exact E. }
  assert (nodash h) as D by apply G. unfold pem_get. rewrite find_no_end by exact D. unfold find_header. rewrite begin_is, (find_hit (bcore h)). reflexivity.
Qed.
