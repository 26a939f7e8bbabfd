(* Proofs that the compression functions of the model are those of the standards. *)
From Verif Require Import Words EncSpec TaskModel CipherBase CipherLib RcProofs StreamModel StreamProofs HashModel HashSpec HashProofs.
From Coq Require Import PeanoNat.
Open Scope N_scope.

(* ---- words *)
Lemma sum_nil : forall w, sum w [] = 0 mod 2 ^ w.
Proof. reflexivity. Qed.
Lemma sum2 : forall w a b, addw w a b = sum w [a; b].
Proof. intros. unfold addw, sum. cbn [fold_right]. rewrite N.add_0_r. reflexivity. Qed.
Lemma sum_app : forall a b, fold_right N.add 0 (a ++ b) = fold_right N.add 0 a + fold_right N.add 0 b.
Proof. induction a as [|x a IH]; intro b; [reflexivity|]. cbn [app fold_right]. rewrite IH. lia. Qed.
Lemma pow_nz : forall w, 2 ^ w <> 0.
Proof. intro w. apply N.pow_nonzero. discriminate. Qed.
Lemma sum_snoc : forall w l b, addw w (sum w l) b = sum w (l ++ [b]).
Proof.
  intros w l b. unfold addw, sum. rewrite N.add_mod_idemp_l by apply pow_nz. rewrite sum_app. cbn [fold_right]. rewrite N.add_0_r. reflexivity.
Qed.
Lemma sum3 : forall w a b c, addw w (addw w a b) c = sum w [a; b; c].
Proof. intros. rewrite (sum2 w a b), sum_snoc. reflexivity. Qed.
Lemma sum4 : forall w a b c d, addw w (addw w (addw w a b) c) d = sum w [a; b; c; d].
Proof. intros. rewrite (sum3 w a b c), sum_snoc. reflexivity. Qed.
Lemma sum5 : forall w a b c d e, addw w (addw w (addw w (addw w a b) c) d) e = sum w [a; b; c; d; e].
Proof. intros. rewrite (sum4 w a b c d), sum_snoc. reflexivity. Qed.
Lemma sum_perm3 : forall w a b c, sum w [a; b; c] = sum w [a; c; b].
Proof. intros. unfold sum. cbn [fold_right]. f_equal. lia. Qed.
Lemma sum_perm2 : forall w a b, sum w [a; b] = sum w [b; a].
Proof. intros. unfold sum. cbn [fold_right]. f_equal. lia. Qed.
Lemma sum_lt : forall w l, sum w l < 2 ^ w.
Proof. intros. unfold sum. apply N.mod_lt, pow_nz. Qed.
Lemma rotl_ROTL : forall w x n, rotl w x n = ROTL w n x.
Proof. reflexivity. Qed.
Lemma rotr_ROTR : forall w x n, rotr w x n = ROTR w n x.
Proof. reflexivity. Qed.
Lemma notw_compl : forall w x, notw w x = compl w x.
Proof. intros. unfold notw, compl. apply N.lxor_comm. Qed.
Lemma add_each : forall w a b, add_state w a b = each_sum w a b.
Proof. intros. unfold add_state, each_sum. apply map_ext. intro p. apply sum2. Qed.
Lemma each_sum_length : forall w a b, length a = length b -> length (each_sum w a b) = length a.
Proof. intros w a b H. unfold each_sum. rewrite map_length, combine_length. lia. Qed.

(* ---- byte order *)
Lemma rev_u32_rev32 : forall x, rev_u32 x = rev32 x.
Proof.
  intro x. unfold rev_u32, rev32. set (a := shr x 24). set (b := shr (and x 0x00FF0000) 8). set (c := shl32 (and x 0x0000FF00) 8). set (d := shl32 x 24).
  rewrite (N.lor_comm (a |. b |. c) d). rewrite <- !N.lor_assoc. f_equal.
  rewrite (N.lor_comm c (b |. a)). rewrite (N.lor_comm b a). rewrite <- N.lor_assoc. reflexivity.
Qed.
Lemma four : forall (l : list N), length l = 4%nat -> exists a b c d, l = [a; b; c; d].
Proof. intros [|a [|b [|c [|d [|e l]]]]] H; try discriminate. eauto. Qed.
Lemma rev_u32_bytes : forall s, bytes s -> length s = 4%nat -> rev_u32 (be_val s) = le_val s.
Proof.
  intros s Hs L. destruct (four s L) as (a & b & c & d & ->). rewrite rev_u32_rev32.
  inversion Hs as [|? ? Ha H1]; subst. inversion H1 as [|? ? Hb H2]; subst. inversion H2 as [|? ? Hc H3]; subst. inversion H3 as [|? ? Hd H4]; subst.
  rewrite rev32_bytes by assumption. reflexivity.
Qed.
Lemma rev_u32_out : forall x, x < 2 ^ 32 -> be_bytes 4 (rev_u32 x) = le_bytes 4 x.
Proof.
  intros x H. rewrite <- (be_val_bytes 4 x) at 1 by exact H.
  rewrite rev_u32_bytes by (apply be_bytes_bytes || apply be_bytes_length). unfold le_val, le_bytes.
  pose proof (be_bytes_val (rev (be_bytes 4 x)) (Forall_rev (be_bytes_bytes 4 x))) as E. rewrite rev_length, be_bytes_length in E. exact E.
Qed.
Lemma le_ord : forall B, bytes B -> length B = 64%nat -> map rev_u32 (load_be 4 16 B) = le_words 4 B.
Proof.
  intros B Hb L. rewrite (le_words_load 4 16) by (try lia; exact L). unfold load_be, load_le. rewrite map_map. apply map_ext_in.
  intros i Hi. apply in_seq in Hi. apply rev_u32_bytes; [apply bytes_slice, Hb|]. unfold slice. rewrite firstn_length, skipn_length. lia.
Qed.
Lemma be_ord : forall wb B, (0 < wb)%nat -> length B = (16 * wb)%nat -> load_be wb 16 B = be_words wb B.
Proof. intros wb B Hw L. symmetry. apply be_words_load; assumption. Qed.
Lemma le_fix : forall X total, length X = 56%nat -> total < 2 ^ 64 ->
  swap_len (load_be 4 16 (X ++ be_bytes 8 total)) = load_be 4 16 (X ++ le_bytes 8 total).
Proof.
  intros X total L Ht.
  set (hi := total / 256 ^ N.of_nat 4).
  assert (hi < 2 ^ 32) as Hhi by (unfold hi; apply N.div_lt_upper_bound; [discriminate|exact Ht]).
  change (be_bytes 8 total) with (be_bytes (4 + 4) total).
  assert (le_bytes 8 total = le_bytes 4 total ++ le_bytes 4 hi) as ->.
  { unfold le_bytes. change (be_bytes 8 total) with (be_bytes (4 + 4) total). rewrite be_bytes_app, rev_app_distr. reflexivity. }
  rewrite be_bytes_app. fold hi. unfold swap_len.
  assert (forall (a b : N) i, (i < 14)%nat -> nth i (load_be 4 16 (X ++ be_bytes 4 a ++ be_bytes 4 b)) 0 = nth i (load_be 4 16 (X ++ le_bytes 4 b ++ le_bytes 4 a)) 0) as Low.
  { intros a b i Hi. rewrite !nth_load_be by lia. rewrite !slice_app_l by lia. reflexivity. }
  assert (forall a b, length a = 4%nat -> length b = 4%nat -> nth 14 (load_be 4 16 (X ++ a ++ b)) 0 = be_val a) as W14.
  { intros a b La Lb. rewrite nth_load_be by lia. rewrite slice_app_r by lia. rewrite L.
    rewrite slice_app_l by (cbn; lia). unfold slice. change (skipn (14 * 4 - 56) a) with a. rewrite firstn_all2 by lia. reflexivity. }
  assert (forall a b, length a = 4%nat -> length b = 4%nat -> nth 15 (load_be 4 16 (X ++ a ++ b)) 0 = be_val b) as W15.
  { intros a b La Lb. rewrite nth_load_be by lia. rewrite app_assoc, slice_app_r by (rewrite app_length; lia). rewrite app_length, L, La.
    unfold slice. change (skipn (15 * 4 - (56 + 4)) b) with b. rewrite firstn_all2 by lia. reflexivity. }
  assert (forall x, be_val (le_bytes 4 x) = rev_u32 (be_val (be_bytes 4 x))) as R.
  { intro x. rewrite rev_u32_bytes by (apply be_bytes_bytes || apply be_bytes_length). reflexivity. }
  apply list_ext; [rewrite !upd_length, !load_be_length; reflexivity|].
  intros i Hi. rewrite !upd_length, load_be_length in Hi.
  rewrite nth_upd by (rewrite upd_length, load_be_length; lia).
  destruct (Nat.eqb_spec 15 i) as [<-|E15].
  { rewrite W14 by (rewrite ?be_bytes_length; reflexivity). rewrite W15 by (rewrite ?le_bytes_length; reflexivity). symmetry. apply R. }
  rewrite nth_upd by (rewrite load_be_length; lia).
  destruct (Nat.eqb_spec 14 i) as [<-|E14].
  { rewrite W15 by (rewrite ?be_bytes_length; reflexivity). rewrite W14 by (rewrite ?le_bytes_length; reflexivity). symmetry. apply R. }
  apply Low. lia.
Qed.

(* ---- MD4, MD5: registers in turn *)
Definition regs4 (i : nat) : list nat := nth (i mod 4) [[0; 1; 2; 3]; [3; 0; 1; 2]; [2; 3; 0; 1]; [1; 2; 3; 0]]%nat [].
Definition view4 (i : nat) (v : list N) : quad :=
  (nth (nth 0 (regs4 i) 0%nat) v 0, nth (nth 1 (regs4 i) 0%nat) v 0, nth (nth 2 (regs4 i) 0%nat) v 0, nth (nth 3 (regs4 i) 0%nat) v 0).
Definition turn4 (G : nat -> N -> N -> N -> N -> N) (q : quad) (i : nat) : quad :=
  let '(a, b, c, d) := q in (d, G i a b c d, b, c).
Lemma mod4_cases : forall i, ((i mod 4 = 0 /\ S i mod 4 = 1) \/ (i mod 4 = 1 /\ S i mod 4 = 2) \/ (i mod 4 = 2 /\ S i mod 4 = 3) \/ (i mod 4 = 3 /\ S i mod 4 = 0))%nat.
Proof.
  intro i. pose proof (Nat.div_mod i 4 ltac:(lia)) as E. pose proof (Nat.mod_upper_bound i 4 ltac:(lia)) as B.
  assert (forall r, (r < 4)%nat -> S i = (4 * (i / 4) + r)%nat -> (S i mod 4 = r)%nat) as F by (intros r Hr Hi; symmetry; apply (Nat.mod_unique _ _ (i / 4)); lia).
  destruct (i mod 4)%nat as [|[|[|[|k]]]]; [| | | |lia].
  - left. split; [reflexivity|apply F; lia].
  - right; left. split; [reflexivity|apply F; lia].
  - right; right; left. split; [reflexivity|apply F; lia].
  - right; right; right. split; [reflexivity|]. symmetry. apply (Nat.mod_unique _ _ (S (i / 4))); lia.
Qed.
Lemma sim4 : forall G (step : list N -> line -> list N) (ln : nat -> line),
  (forall i v, step v (ln i) = upd v (nth 0 (regs4 i) 0%nat) (let '(a, b, c, d) := view4 i v in G i a b c d)) ->
  forall n v, length v = 4%nat ->
  length (fold_left step (map ln (seq 0 n)) v) = 4%nat /\
  view4 n (fold_left step (map ln (seq 0 n)) v) = fold_left (turn4 G) (seq 0 n) (view4 0 v).
Proof.
  intros G step ln H. induction n as [|n IH]; intros v L; [split; [exact L|reflexivity]|].
  rewrite seq_S, map_app, !fold_left_app. destruct (IH v L) as [IH1 IH2]. cbn [map fold_left]. change (0 + n)%nat with n.
  rewrite <- IH2. set (u := fold_left step (map ln (seq 0 n)) v) in *. clearbody u. rewrite H.
  destruct (four u IH1) as (a & b & c & d & ->). split; [rewrite upd_length; reflexivity|].
  unfold view4, regs4, turn4.
  destruct (mod4_cases n) as [[E1 E2]|[[E1 E2]|[[E1 E2]|[E1 E2]]]]; rewrite E1, E2; reflexivity.
Qed.
Lemma view_back : forall n v, (n mod 4 = 0)%nat -> length v = 4%nat -> (let '(a, b, c, d) := view4 n v in [a; b; c; d]) = v.
Proof. intros n v E L. destruct (four v L) as (a & b & c & d & ->). unfold view4, regs4. rewrite E. reflexivity. Qed.

Definition md4_line (i : nat) : line := L false (regs4 i) (i / 16) (MD4_k i) (MD4_K (i / 16)) (MD4_s i).
Lemma md4_lines_eq : md4_lines = map md4_line (seq 0 48).
Proof. vm_compute. reflexivity. Qed.
Lemma md4_f_eq : forall i x y z, md4_f i x y z = MD4_F i x y z.
Proof. intros [|[|i]] x y z; unfold md4_f, MD4_F; rewrite ?notw_compl; reflexivity. Qed.
Definition MD4_G (X : list N) (i : nat) (a b c d : N) : N := ROTL 32 (MD4_s i) (sum 32 [a; MD4_F (i / 16) b c d; pick 0 X (MD4_k i); MD4_K (i / 16)]).
Lemma md4_step_eq : forall X i v, md4_step md4_f X v (md4_line i) = upd v (nth 0 (regs4 i) 0%nat)
  (let '(a, b, c, d) := view4 i v in MD4_G X i a b c d).
Proof.
  intros X i v. unfold md4_step, line_sum, var, view4, md4_line, pick. cbn [l_var l_f l_x l_k l_s].
  rewrite md4_f_eq, sum4, rotl_ROTL. reflexivity.
Qed.
Lemma fold_ext : forall {A B} (f g : A -> B -> A) l a, (forall x y, f x y = g x y) -> fold_left f l a = fold_left g l a.
Proof. intros A B f g l a H. revert a. induction l as [|x l IH]; intro a; [reflexivity|]. cbn [fold_left]. rewrite H. apply IH. Qed.
Lemma md4_comp_eq : forall st block, length st = 4%nat -> md4_comp st (le_words 4 block) = MD4_block st block /\ length (MD4_block st block) = 4%nat.
Proof.
  intros st block L. unfold md4_comp, MD4_block. rewrite add_each, md4_lines_eq.
  pose proof (sim4 (MD4_G (le_words 4 block)) _ _ (md4_step_eq (le_words 4 block)) 48 st L) as [S1 S2].
  set (v := fold_left (md4_step md4_f (le_words 4 block)) (map md4_line (seq 0 48)) st) in *. clearbody v.
  assert (in_quad (fun q => fold_left (MD4_step (le_words 4 block)) (seq 0 48) q) st = v) as ->.
  { rewrite <- (view_back 48 v eq_refl S1), S2. destruct (four st L) as (a & b & c & d & ->). unfold in_quad.
    change (view4 0 [a; b; c; d]) with (a, b, c, d).
    rewrite (fold_ext (MD4_step (le_words 4 block)) (turn4 (MD4_G (le_words 4 block)))); [reflexivity|].
    intros [[[? ?] ?] ?] i. reflexivity. }
  split; [reflexivity|]. rewrite each_sum_length; lia.
Qed.

Definition md5_line (i : nat) : line := L false (regs4 i) (i / 16) (MD5_k i) (pick 0 MD5_T i) (MD5_s i).
Lemma md5_lines_eq : md5_lines = map md5_line (seq 0 64).
Proof. vm_compute. reflexivity. Qed.
Lemma md5_f_eq : forall i x y z, md5_f i x y z = MD5_F i x y z.
Proof. intros [|[|[|i]]] x y z; unfold md5_f, MD5_F; rewrite ?notw_compl; reflexivity. Qed.
Definition MD5_G (X : list N) (i : nat) (a b c d : N) : N := sum 32 [b; ROTL 32 (MD5_s i) (sum 32 [a; MD5_F (i / 16) b c d; pick 0 X (MD5_k i); pick 0 MD5_T i])].
Lemma md5_step_eq : forall X i v, md5_step X v (md5_line i) = upd v (nth 0 (regs4 i) 0%nat)
  (let '(a, b, c, d) := view4 i v in MD5_G X i a b c d).
Proof.
  intros X i v. unfold md5_step, line_sum, var, view4, md5_line, pick. cbn [l_var l_f l_x l_k l_s].
  rewrite md5_f_eq, sum4, rotl_ROTL, sum2. reflexivity.
Qed.
Lemma md5_comp_eq : forall st block, length st = 4%nat -> md5_comp st (le_words 4 block) = MD5_block st block /\ length (MD5_block st block) = 4%nat.
Proof.
  intros st block L. unfold md5_comp, MD5_block. rewrite add_each, md5_lines_eq.
  pose proof (sim4 (MD5_G (le_words 4 block)) _ _ (md5_step_eq (le_words 4 block)) 64 st L) as [S1 S2].
  set (v := fold_left (md5_step (le_words 4 block)) (map md5_line (seq 0 64)) st) in *. clearbody v.
  assert (in_quad (fun q => fold_left (MD5_step (le_words 4 block)) (seq 0 64) q) st = v) as ->.
  { rewrite <- (view_back 64 v eq_refl S1), S2. destruct (four st L) as (a & b & c & d & ->). unfold in_quad.
    change (view4 0 [a; b; c; d]) with (a, b, c, d).
    rewrite (fold_ext (MD5_step (le_words 4 block)) (turn4 (MD5_G (le_words 4 block)))); [reflexivity|].
    intros [[[? ?] ?] ?] i. reflexivity. }
  split; [reflexivity|]. rewrite each_sum_length; lia.
Qed.

(* ---- RIPEMD: the two lines *)
Lemma sides : forall (step : list N -> line -> list N) ls v u,
  fold_left (on_side step) ls (v, u) = (fold_left step (filter (fun l => negb (l_side l)) ls) v, fold_left step (filter l_side ls) u).
Proof.
  intros step. induction ls as [|l ls IH]; intros v u; [reflexivity|]. cbn [fold_left filter]. unfold on_side at 2. cbn [fst snd].
  destruct (l_side l); cbn [negb fold_left]; apply IH.
Qed.
Lemma rmd_f_eq : forall i x y z, rmd_f i x y z = RMD_F i x y z.
Proof. intros [|[|[|[|i]]]] x y z; unfold rmd_f, RMD_F; rewrite ?notw_compl; reflexivity. Qed.
Definition rmd128_line (side : bool) (f : nat -> nat) (K : nat -> N) (r : nat -> nat) (i : nat) : line :=
  L side (regs4 i) (f (i / 16)%nat) (r i) (K (i / 16)%nat) (RMD_shift (i / 16) (r i)).
Lemma rmd128_left : filter (fun l => negb (l_side l)) rmd128_lines = map (rmd128_line false (fun i => i) RMD_K RMD_r) (seq 0 64).
Proof. vm_compute. reflexivity. Qed.
Lemma rmd128_right : filter l_side rmd128_lines = map (rmd128_line true (fun i => 3 - i)%nat RMD128_K' RMD_r') (seq 0 64).
Proof. vm_compute. reflexivity. Qed.
Definition RMD128_G (f : nat -> nat) (K : nat -> N) (r : nat -> nat) (X : list N) (i : nat) (a b c d : N) : N := ROTL 32 (RMD_shift (i / 16) (r i)) (sum 32 [a; RMD_F (f (i / 16)%nat) b c d; pick 0 X (r i); K (i / 16)%nat]).
Lemma rmd128_step_eq : forall s f K r X i v, md4_step rmd_f X v (rmd128_line s f K r i) = upd v (nth 0 (regs4 i) 0%nat)
  (let '(a, b, c, d) := view4 i v in RMD128_G f K r X i a b c d).
Proof.
  intros s f K r X i v. unfold md4_step, line_sum, var, view4, rmd128_line, pick. cbn [l_var l_f l_x l_k l_s].
  rewrite rmd_f_eq, sum4, rotl_ROTL. reflexivity.
Qed.
Lemma rmd128_side : forall s f K r X v, length v = 4%nat ->
  let u := fold_left (md4_step rmd_f X) (map (rmd128_line s f K r) (seq 0 64)) v in
  length u = 4%nat /\ (nth 0 u 0, nth 1 u 0, nth 2 u 0, nth 3 u 0) = fold_left (RMD128_step f K r X) (seq 0 64) (nth 0 v 0, nth 1 v 0, nth 2 v 0, nth 3 v 0).
Proof.
  intros s f K r X v Lv u. pose proof (sim4 (RMD128_G f K r X) _ _ (rmd128_step_eq s f K r X) 64 v Lv) as [S1 S2]. fold u in S1, S2. split; [exact S1|].
  change (nth 0 u 0, nth 1 u 0, nth 2 u 0, nth 3 u 0) with (view4 64 u). rewrite S2. clear.
  change (view4 0 v) with (nth 0 v 0, nth 1 v 0, nth 2 v 0, nth 3 v 0). apply fold_ext. intros [[[? ?] ?] ?] i. reflexivity.
Qed.
Lemma rmd128_comp_eq : forall st block, length st = 4%nat -> rmd128_comp st (le_words 4 block) = RMD128_block st block /\ length (RMD128_block st block) = 4%nat.
Proof.
  intros st block Ls. unfold rmd128_comp, RMD128_block. rewrite sides, rmd128_left, rmd128_right.
  pose proof (rmd128_side false (fun i => i) RMD_K RMD_r (le_words 4 block) st Ls) as [A1 A2].
  pose proof (rmd128_side true (fun i => 3 - i)%nat RMD128_K' RMD_r' (le_words 4 block) st Ls) as [B1 B2].
  set (v := fold_left _ (map (rmd128_line false _ _ _) _) st) in *. set (u := fold_left _ (map (rmd128_line true _ _ _) _) st) in *. clearbody u v.
  destruct (four st Ls) as (h0 & h1 & h2 & h3 & ->). cbn [nth] in A2, B2. cbv zeta. rewrite <- A2, <- B2. split; [|reflexivity].
  rewrite !sum3. cbn [nth]. f_equal; [apply sum_perm3|f_equal; [apply sum_perm3|f_equal; [apply sum_perm3|f_equal; apply sum_perm3]]].
Qed.

Definition regs5 (i : nat) : list nat := nth (i mod 5) [[0; 1; 2; 3; 4]; [4; 0; 1; 2; 3]; [3; 4; 0; 1; 2]; [2; 3; 4; 0; 1]; [1; 2; 3; 4; 0]]%nat [].
Definition quint := (N * N * N * N * N)%type.
Definition view5 (i : nat) (v : list N) : quint :=
  (nth (nth 0 (regs5 i) 0%nat) v 0, nth (nth 1 (regs5 i) 0%nat) v 0, nth (nth 2 (regs5 i) 0%nat) v 0, nth (nth 3 (regs5 i) 0%nat) v 0, nth (nth 4 (regs5 i) 0%nat) v 0).
Lemma mod5_cases : forall i, ((i mod 5 = 0 /\ S i mod 5 = 1) \/ (i mod 5 = 1 /\ S i mod 5 = 2) \/ (i mod 5 = 2 /\ S i mod 5 = 3) \/ (i mod 5 = 3 /\ S i mod 5 = 4) \/ (i mod 5 = 4 /\ S i mod 5 = 0))%nat.
Proof.
  intro i. pose proof (Nat.div_mod i 5 ltac:(lia)) as E. pose proof (Nat.mod_upper_bound i 5 ltac:(lia)) as B.
  assert (forall r, (r < 5)%nat -> S i = (5 * (i / 5) + r)%nat -> (S i mod 5 = r)%nat) as F by (intros r Hr Hi; symmetry; apply (Nat.mod_unique _ _ (i / 5)); lia).
  destruct (i mod 5)%nat as [|[|[|[|[|k]]]]]; [| | | | |lia].
  - left. split; [reflexivity|apply F; lia].
  - right; left. split; [reflexivity|apply F; lia].
  - right; right; left. split; [reflexivity|apply F; lia].
  - right; right; right; left. split; [reflexivity|apply F; lia].
  - right; right; right; right. split; [reflexivity|]. symmetry. apply (Nat.mod_unique _ _ (S (i / 5))); lia.
Qed.
Lemma five : forall (l : list N), length l = 5%nat -> exists a b c d e, l = [a; b; c; d; e].
Proof. intros [|a [|b [|c [|d [|e [|f l]]]]]] H; try discriminate. eauto 6. Qed.
Definition rmd160_line (side : bool) (f : nat -> nat) (K : nat -> N) (r : nat -> nat) (i : nat) : line :=
  L side (regs5 i) (f (i / 16)%nat) (r i) (K (i / 16)%nat) (RMD_shift (i / 16) (r i)).
Lemma rmd160_left : filter (fun l => negb (l_side l)) rmd160_lines = map (rmd160_line false (fun i => i) RMD_K RMD_r) (seq 0 80).
Proof. vm_compute. reflexivity. Qed.
Lemma rmd160_right : filter l_side rmd160_lines = map (rmd160_line true (fun i => 4 - i)%nat RMD160_K' RMD_r') (seq 0 80).
Proof. vm_compute. reflexivity. Qed.
Lemma rmd160_one : forall s f K r X i v, length v = 5%nat ->
  view5 (S i) (rmd160_step X v (rmd160_line s f K r i)) = RMD160_step f K r X (view5 i v) i.
Proof.
  intros s f K r X i v Lv. unfold rmd160_step, line_sum, var, rmd160_line, RMD160_step, pick. cbn [l_var l_f l_x l_k l_s].
  set (x := nth (r i) X 0). set (k := K (i / 16)%nat). set (sh := RMD_shift (i / 16) (r i)).
  set (F := f (i / 16)%nat). clearbody x k sh F.
  destruct (five v Lv) as (a & b & c & d & e & ->). unfold view5, regs5.
  destruct (mod5_cases i) as [[E1 E2]|[[E1 E2]|[[E1 E2]|[[E1 E2]|[E1 E2]]]]]; rewrite E1, E2; cbn [nth];
    rewrite rmd_f_eq, sum4, !rotl_ROTL, sum2; reflexivity.
Qed.
Lemma rmd160_side : forall s f K r X n v, length v = 5%nat ->
  let u := fold_left (rmd160_step X) (map (rmd160_line s f K r) (seq 0 n)) v in
  length u = 5%nat /\ view5 n u = fold_left (RMD160_step f K r X) (seq 0 n) (view5 0 v).
Proof.
  intros s f K r X n v Lv. induction n as [|n IH]; [split; [exact Lv|reflexivity]|]. cbv zeta in *. destruct IH as [I1 I2].
  rewrite seq_S, map_app, !fold_left_app. change (0 + n)%nat with n. cbn [map fold_left]. rewrite <- I2.
  split; [unfold rmd160_step; rewrite !upd_length; exact I1|]. apply rmd160_one. exact I1.
Qed.
Lemma rmd160_comp_eq : forall st block, length st = 5%nat -> rmd160_comp st (le_words 4 block) = RMD160_block st block /\ length (RMD160_block st block) = 5%nat.
Proof.
  intros st block Ls. unfold rmd160_comp, RMD160_block. rewrite sides, rmd160_left, rmd160_right.
  pose proof (rmd160_side false (fun i => i) RMD_K RMD_r (le_words 4 block) 80 st Ls) as [A1 A2].
  pose proof (rmd160_side true (fun i => 4 - i)%nat RMD160_K' RMD_r' (le_words 4 block) 80 st Ls) as [B1 B2].
  set (v := fold_left _ (map (rmd160_line false _ _ _) _) st) in *. set (u := fold_left _ (map (rmd160_line true _ _ _) _) st) in *. clearbody u v.
  destruct (five st Ls) as (h0 & h1 & h2 & h3 & h4 & ->).
  change (view5 0 [h0; h1; h2; h3; h4]) with (h0, h1, h2, h3, h4) in A2, B2. cbv zeta. rewrite <- A2, <- B2.
  change (view5 80 v) with (nth 0 v 0, nth 1 v 0, nth 2 v 0, nth 3 v 0, nth 4 v 0).
  change (view5 80 u) with (nth 0 u 0, nth 1 u 0, nth 2 u 0, nth 3 u 0, nth 4 u 0). split; [|reflexivity].
  rewrite !sum3. cbn [nth]. f_equal; [apply sum_perm3|f_equal; [apply sum_perm3|f_equal; [apply sum_perm3|f_equal; [apply sum_perm3|f_equal; apply sum_perm3]]]].
Qed.
