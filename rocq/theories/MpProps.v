(* Multiprecision arithmetic: properties C56-C61, C65, C66. *)
From Verif Require Import Words EncSpec MpModel MpSpec MpProofs MpProofs2 MpProofs3.
Open Scope N_scope.
Local Ltac wfok := lazymatch goal with
  | |- well_formed _ => split; [discriminate|repeat constructor]
  | |- normal _ => split; [wfok|intros _; vm_compute; discriminate]
  | |- trimmed_digits _ => vm_compute; discriminate
  | |- _ /\ _ => split; wfok
  | |- _ <= _ => apply N.leb_le; vm_compute; reflexivity
  | |- _ => vm_compute; reflexivity
  end.

(* C56. Signed addition and subtraction are those of the integers. *)
Theorem mp_add_exact : forall x y, normal x -> normal y -> exists z, add_s x y = Done z /\ normal z /\ value z = (value x + value y)%Z.
Proof. exact add_s_ok. Qed.
Theorem mp_sub_exact : forall x y, normal x -> normal y -> exists z, sub_s x y = Done z /\ normal z /\ value z = (value x - value y)%Z.
Proof. exact sub_s_ok. Qed.
(* The unsigned functions: sums of magnitudes that are not both zero; differences of magnitudes that are not zero. *)
Theorem mp_unsigned_add_exact : forall x y, well_formed x -> well_formed y -> magnitude x + magnitude y <> 0 ->
  exists z, mp_add (Some x) y = Done z /\ well_formed z /\ neg z = neg x /\ magnitude z = magnitude x + magnitude y.
Proof. intros x y Wx Wy H. destruct (mp_add_ok x y Wx Wy H) as (r & E & Nr & Mr & Wr & _). exists r. repeat split; try assumption; apply Wr. Qed.
Theorem mp_unsigned_sub_exact : forall x y, well_formed x -> well_formed y -> magnitude x <> 0 -> magnitude y <> 0 ->
  exists z, mp_sub (Some x) y = Done z /\ well_formed z /\ value z = (Z.of_N (magnitude x) - Z.of_N (magnitude y))%Z.
Proof.
  intros x y Wx Wy Hx Hy. destruct (mp_sub_ok x y Wx Wy Hx Hy) as (r & E & Wr & Nr & Mr & _). exists r. split; [exact E|]. split; [exact Wr|]. unfold value. rewrite Nr, Mr.
  destruct (N.ltb_spec (magnitude x) (magnitude y)); lia.
Qed.
(* 0 + 0 reads digits nobody wrote; 0 - y is y; without a destination the sum 0 + y keeps one byte of each eight *)
Theorem mp_unsigned_add_zero_refuted : mp_add (Some (num 0)) (num 0) = UB.
Proof. reflexivity. Qed.
Theorem mp_unsigned_sub_zero_refuted : ~ (forall x y, well_formed x -> well_formed y -> neg x = false -> neg y = false ->
  exists z, mp_sub (Some x) y = Done z /\ value z = (Z.of_N (magnitude x) - Z.of_N (magnitude y))%Z).
Proof.
  intro H. destruct (H (num 0) (num 5)) as (z & E & V); [split; [discriminate|repeat constructor]|split; [discriminate|repeat constructor]|reflexivity|reflexivity|]. vm_compute in E. injection E as <-. vm_compute in V. discriminate.
Qed.
Theorem mp_add_new_refuted : ~ (forall y, well_formed y -> neg y = false -> exists z, mp_add None y = Done z /\ value z = value y).
Proof. intro H. destruct (H (num 256)) as (z & E & V); [split; [discriminate|repeat constructor]|reflexivity|]. vm_compute in E. injection E as <-. vm_compute in V. discriminate. Qed.
Example mp_add_meets : let x := mkMp true [2 ^ 64 - 1; 2 ^ 64 - 1] in let y := mkMp true [1; 0; 0] in normal x /\ normal y /\ add_s x y = Done (mkMp true [0; 0; 1]).
Proof. cbv zeta. wfok. Qed.
Example mp_sub_meets : let x := mkMp false [5] in let y := mkMp false [0; 1] in normal x /\ normal y /\ sub_s x y = Done (mkMp true [2 ^ 64 - 5]).
Proof. cbv zeta. wfok. Qed.

(* C57. Signed multiplication is that of the integers; the unsigned function multiplies the magnitudes. *)
Theorem mp_mul_exact : forall x y, normal x -> normal y -> normal (mul_s x y) /\ value (mul_s x y) = (value x * value y)%Z.
Proof. exact mul_s_ok. Qed.
Theorem mp_unsigned_mul_exact : forall x y, well_formed x -> well_formed y ->
  well_formed (mp_mul (Some x) y) /\ neg (mp_mul (Some x) y) = false /\ magnitude (mp_mul (Some x) y) = magnitude x * magnitude y.
Proof. intros x y Wx Wy. destruct (mp_mul_ok x y Wx Wy) as (A & C & D & _). repeat split; try assumption; apply A. Qed.
Theorem mp_mul_new_refuted : ~ (forall y, well_formed y -> neg y = false -> value (mp_mul None y) = value y).
Proof. intro H. assert (value (mp_mul None (num 256)) = value (num 256)) as X by (apply H; wfok). vm_compute in X. discriminate. Qed.
Example mp_mul_meets : let x := mkMp true [2 ^ 64 - 1; 2 ^ 64 - 1] in let y := mkMp false [2 ^ 64 - 1] in normal x /\ normal y /\ mul_s x y = mkMp true [1; 2 ^ 64 - 1; 2 ^ 64 - 2].
Proof. cbv zeta. wfok. Qed.

(* C58. Equality of all values; order of values of the same sign is the order of their magnitudes. *)
Theorem mp_equality : forall x y, normal x -> normal y -> (mp_eq x y = true <-> value x = value y) /\ (mp_ne x y = true <-> value x <> value y).
Proof.
  intros x y Nx Ny. assert (mp_eq x y = true <-> value x = value y) as H.
  { rewrite mp_eq_ok by (apply Nx || apply Ny). rewrite andb_true_iff, Bool.eqb_true_iff, N.eqb_eq. destruct Nx as [_ Nx]. destruct Ny as [_ Ny]. unfold value. destruct (neg x), (neg y); split; try (intros [A C]; try discriminate A; lia); intro A; split; try reflexivity; lia. }
  split; [exact H|]. unfold mp_ne. rewrite negb_true_iff. destruct (mp_eq x y); split; try discriminate; intro A; try reflexivity; [exfalso; apply A, H; reflexivity|]. intro C. apply H in C. discriminate.
Qed.
Theorem mp_order_partial : forall x y, well_formed x -> well_formed y -> neg x = false -> neg y = false ->
  (mp_lt x y = true <-> (value x < value y)%Z) /\ (mp_le x y = true <-> (value x <= value y)%Z) /\
  (mp_gt x y = true <-> (value x > value y)%Z) /\ (mp_ge x y = true <-> (value x >= value y)%Z).
Proof.
  intros x y Wx Wy Nx Ny. assert (neg x = neg y) as E by congruence. rewrite mp_lt_ok, mp_le_ok, mp_gt_ok, mp_ge_ok by assumption. unfold value. rewrite Nx, Ny. rewrite !N.ltb_lt, !N.leb_le. lia.
Qed.
(* values with different signs are ordered by their magnitudes, and negative values the wrong way around *)
Theorem mp_order_refuted : ~ (forall x y, normal x -> normal y -> (mp_lt x y = true <-> (value x < value y)%Z)).
Proof. intro H. destruct (H (mkMp true [2]) (mkMp false [1])) as [_ H2]; [wfok|wfok|]. vm_compute in H2. discriminate H2. reflexivity. Qed.
Theorem mp_order_negative_refuted : ~ (forall x y, normal x -> normal y -> neg x = true -> neg y = true -> (mp_lt x y = true <-> (value x < value y)%Z)).
Proof. intro H. destruct (H (mkMp true [2]) (mkMp true [1])) as [_ H2]; [wfok|wfok|reflexivity|reflexivity|]. vm_compute in H2. discriminate H2. reflexivity. Qed.
Example mp_order_meets : let x := mkMp false [7; 1; 0; 0] in let y := mkMp false [6; 2] in mp_lt x y = true /\ mp_le x y = true /\ mp_gt x y = false /\ mp_ge x y = false.
Proof. vm_compute. repeat split. Qed.

(* C59. Shifts *)
Theorem mp_left_shift : forall x k, well_formed x -> well_formed (mp_lsh x k) /\ value (mp_lsh x k) = (value x * 2 ^ Z.of_nat k)%Z.
Proof.
  intros x k W. destruct (mp_lsh_ok x k W) as (A & C & D & _). split; [exact A|]. unfold value. rewrite C, D.
  assert (Z.of_N (2 ^ N.of_nat k * magnitude x) = 2 ^ Z.of_nat k * Z.of_N (magnitude x))%Z as -> by (rewrite N2Z.inj_mul, N2Z.inj_pow, nat_N_Z; reflexivity). destruct (neg x); ring.
Qed.
Theorem mp_right_shift : forall x k, well_formed x -> neg x = false -> well_formed (mp_rsh x k) /\ value (mp_rsh x k) = (value x / 2 ^ Z.of_nat k)%Z.
Proof.
  intros x k W Nx. destruct (mp_rsh_ok x k W) as (A & C & D & _). split; [exact A|]. unfold value. rewrite C, D, Nx. rewrite N2Z.inj_div, N2Z.inj_pow, nat_N_Z. reflexivity.
Qed.
Theorem mp_right_shift_negative_refuted : ~ (forall x k, normal x -> value (mp_rsh x k) = (value x / 2 ^ Z.of_nat k)%Z).
Proof. intro H. assert (value (mp_rsh (mkMp true [4]) 1) = (value (mkMp true [4%N]) / 2 ^ Z.of_nat 1)%Z) as X by (apply H; wfok). vm_compute in X. discriminate. Qed.
Example mp_shift_meets : let x := mkMp false [2 ^ 63 + 1; 3] in mp_lsh x 65 = mkMp false [0; 2; 7; 0] /\ mp_rsh x 63 = mkMp false [7; 0].
Proof. vm_compute. split; reflexivity. Qed.

(* C60. Division: the quotient and the remainder always recompose the dividend; the remainder is below the divisor, hence they are
   the Euclidean ones, when no leading digits are equal on the way (see MpSpec), and for every divisor of one digit. *)
Theorem mp_division_partial : forall x y, well_formed x -> well_formed y -> neg x = false -> neg y = false -> magnitude y <> 0 ->
  exists q r, mp_div x y = Done (Some (q, r)) /\ well_formed q /\ well_formed r /\ neg q = false /\ neg r = false /\
    magnitude x = magnitude q * magnitude y + magnitude r /\
    (trimmed_digits y -> no_equal_leads (magnitude x) (magnitude y) -> magnitude q = magnitude x / magnitude y /\ magnitude r = magnitude x mod magnitude y).
Proof.
  intros x y Wx Wy Nx Ny Hy. destruct (mp_div_ok x y (conj Wx Nx) (conj Wy Ny) Hy) as (q & r & E & [Wq Nq] & [Wr Nr] & V & L). exists q, r. repeat split; try assumption; try apply Wq; try apply Wr.
  - apply N.div_unique with (magnitude r); [apply L; assumption|lia].
  - apply N.mod_unique with (magnitude q); [apply L; assumption|lia].
Qed.
Theorem mp_division_one_digit : forall x d, well_formed x -> neg x = false -> 0 < d < 2 ^ 64 ->
  exists q r, mp_div x (num d) = Done (Some (q, r)) /\ magnitude q = magnitude x / d /\ magnitude r = magnitude x mod d.
Proof.
  intros x d Wx Nx Hd. assert (well_formed (num d)) as Wd by (apply wf_num; rewrite B_eq; lia). destruct (mp_division_partial x (num d) Wx Wd Nx eq_refl) as (q & r & E & _ & _ & _ & _ & _ & H); [rewrite mag_num; lia|].
  rewrite mag_num in H. exists q, r. split; [exact E|]. apply H; [unfold trimmed_digits; cbn; lia|]. apply one_digit_leads. rewrite B_eq. lia.
Qed.
Theorem mp_division_refuted : exists x y q r, well_formed x /\ well_formed y /\ trimmed_digits y /\ neg x = false /\ neg y = false /\ mp_div x y = Done (Some (q, r)) /\ magnitude y <= magnitude r.
Proof. exists (mkMp false [1; 2 ^ 63 - 2; 2 ^ 63]), (mkMp false [2 ^ 64 - 1; 2 ^ 63]). do 2 eexists. wfok. Qed.
Theorem mp_division_by_zero : forall x y, magnitude y = 0 -> mp_div x y = Done None.
Proof. intros x y H. unfold mp_div. rewrite mag in H. apply is_zero_dv in H. rewrite H. reflexivity. Qed.
Example mp_division_meets : let x := mkMp false [3; 5; 7] in let y := mkMp false [1; 9] in mp_div x y = Done (Some (mkMp false [14347467612885206812], mkMp false [4099276460824344807; 8])).
Proof. vm_compute. reflexivity. Qed.

(* the condition on leading digits holds for these two *)
Example mp_division_meets_leads : no_equal_leads (magnitude (mkMp false [3; 5; 7])) (magnitude (mkMp false [1; 9])).
Proof.
  change (magnitude (mkMp false [3; 5; 7])) with (3 + 2 ^ 64 * (5 + 2 ^ 64 * 7)). change (magnitude (mkMp false [1; 9])) with (1 + 2 ^ 64 * 9).
  intros n s j K H1 H2 H3. assert (n = 2) as ->.
  { destruct (N.le_gt_cases n 2) as [L|L]; [lia|]. exfalso. assert ((2 ^ 64) ^ 2 <= (2 ^ 64) ^ (n - 1)) as G by (apply N.pow_le_mono_r; lia). assert ((2 ^ 64) ^ 2 <= 1 + 2 ^ 64 * 9) as X by (eapply N.le_trans; eassumption). apply N.leb_le in X. discriminate X. }
  assert (s = 60) as ->.
  { destruct (N.lt_trichotomy s 60) as [L|[L|L]]; [|exact L|]; exfalso.
    - assert (2 ^ s <= 2 ^ 59) as G by (apply N.pow_le_mono_r; lia). assert ((2 ^ 64) ^ 2 <= 2 * (2 ^ 59 * (1 + 2 ^ 64 * 9))) as X by (eapply N.le_trans; [exact H2|]; apply N.mul_le_mono_l, N.mul_le_mono_r, G). apply N.leb_le in X. discriminate X.
    - assert (2 ^ 61 <= 2 ^ s) as G by (apply N.pow_le_mono_r; lia). assert (2 ^ 61 * (1 + 2 ^ 64 * 9) < (2 ^ 64) ^ 2) as X by (eapply N.le_lt_trans; [|exact H3]; apply N.mul_le_mono_r, G). apply N.ltb_lt in X. discriminate X. }
  destruct (N.eq_dec j 0) as [->|J]; [vm_compute; discriminate|]. intro E. assert (2 ^ 60 * (1 + 2 ^ 64 * 9) / (2 ^ 64) ^ (2 - 1) <> 0) as NZ by (vm_compute; discriminate). apply NZ. rewrite <- E. apply N.div_small.
  apply N.le_lt_trans with (2 ^ 60 * (3 + 2 ^ 64 * (5 + 2 ^ 64 * 7))); [apply N.mul_le_mono_l, N.mod_le; intro Z; apply N.eq_mul_0 in Z; destruct Z as [Z|Z]; [discriminate Z|revert Z; apply N.pow_nonzero; discriminate]|].
  apply N.lt_le_trans with ((2 ^ 64) ^ 3); [vm_compute; reflexivity|]. apply N.pow_le_mono_r; [discriminate|lia].
Qed.

(* C61. Modular exponentiation: congruent to the power for every modulus but zero; reduced for moduli of one digit. *)
Theorem mp_power : forall g e, well_formed g -> well_formed e -> neg g = false -> value (mp_pow g e) = (value g ^ Z.of_N (magnitude e))%Z.
Proof.
  intros g e Wg We Ng. destruct (mp_pow_ok g e (conj Wg Ng) We) as [[_ A] C]. unfold value. rewrite A, C, Ng. apply N2Z.inj_pow.
Qed.
Theorem mp_modular_power_partial : forall m e n, well_formed m -> well_formed e -> well_formed n -> neg m = false -> neg n = false -> magnitude n <> 0 ->
  exists r, me_mod_n m e n = Done r /\ well_formed r /\ neg r = false /\ magnitude r mod magnitude n = magnitude m ^ magnitude e mod magnitude n /\
    (magnitude n < 2 ^ 64 -> trimmed_digits n -> magnitude r = magnitude m ^ magnitude e mod magnitude n).
Proof.
  intros m e n Wm We Wn Nm Nn Hn. destruct (me_mod_n_ok m e n (conj Wm Nm) We (conj Wn Nn) Hn) as (r & E & [Wr Nr] & V & L). exists r. split; [exact E|]. split; [exact Wr|]. split; [exact Nr|]. split; [exact V|].
  intros H1 H2. rewrite <- V. symmetry. apply N.mod_small, L; [rewrite B_eq; exact H1|exact H2].
Qed.
Theorem mp_modular_power_zero_modulus_refuted : forall m e n, well_formed e -> well_formed n -> neg n = false -> magnitude n = 0 -> me_mod_n m e n = UB.
Proof. intros m e n We Wn Nn Hn. apply me_mod_zero; [exact We|split; assumption|exact Hn]. Qed.
Theorem mp_modular_power_refuted : exists m e n r, well_formed m /\ well_formed e /\ well_formed n /\ trimmed_digits n /\ neg m = false /\ neg n = false /\ me_mod_n m e n = Done r /\ magnitude n <= magnitude r.
Proof. exists (mkMp false [1; 2 ^ 63 - 2; 2 ^ 63]), (num 1), (mkMp false [2 ^ 64 - 1; 2 ^ 63]). eexists. wfok. Qed.
Example mp_modular_power_meets : me_mod_n (num 3) (num 1000) (num 1000003) = Done (num (3 ^ 1000 mod 1000003)) /\ mp_pow (num 3) (num 5) = num 243.
Proof. vm_compute. split; reflexivity. Qed.

(* C65. Hexadecimal text *)
Theorem hex_read_back : forall a, well_formed a -> hex_value_as_mp (fst (value_as_hex a)) = Some a.
Proof. exact hex_round_trip. Qed.
Theorem hex_read : forall (minus : bool) digits, Forall hex_char digits -> (minus = true \/ digits <> []) ->
  exists a, hex_value_as_mp ((if minus then [45] else []) ++ digits) = Some a /\ well_formed a /\
    value a = (if minus then - Z.of_N (hex_number digits) else Z.of_N (hex_number digits))%Z.
Proof. intros s l H N0. destruct (hex_mp_ok s l H N0) as (a & E & Na & Ma & Wa & _). exists a. split; [exact E|]. split; [exact Wa|]. unfold value. rewrite Na, Ma. reflexivity. Qed.
(* the size reported along with the text of a negative value is one less than its length *)
Theorem hex_size_refuted : forall a, well_formed a -> neg a = true -> length (fst (value_as_hex a)) = S (snd (value_as_hex a)).
Proof.
  intros [s l] _ E. cbn in E. subst s. unfold value_as_hex, size. cbn [neg data fst snd app length]. f_equal. rewrite <- (rev_length l). induction (rev l) as [|d r IH]; [reflexivity|]. cbn [map concat]. rewrite app_length, IH. cbn [digit_hex length map]. lia.
Qed.
Example hex_meets : let a := mkMp true [0xDEADBEEF; 0x12] in well_formed a /\ hex_value_as_mp (fst (value_as_hex a)) = Some a /\ hex_value_as_mp [45; 102; 70; 49] = Some (mkMp true [0xFF1]).
Proof. cbv zeta. wfok. Qed.

(* C66. Byte buffers, big-endian *)
Theorem raw_buffer_value : forall buf, octets buf -> buf <> [] -> exists a, raw_buffer_as_mp buf = Some a /\ well_formed a /\ value a = Z.of_N (be_val buf).
Proof. intros l H N0. destruct (raw_ok l (proj1 (CipherLib.octets_bytes l) H) N0) as (a & E & Na & Ma & Wa & _). exists a. split; [exact E|]. split; [exact Wa|]. unfold value. rewrite Na, Ma. reflexivity. Qed.
Theorem raw_buffer_back : forall buf a, octets buf -> raw_buffer_as_mp buf = Some a ->
  as_task_out a = repeat 0 ((8 - length buf mod 8) mod 8) ++ buf.
Proof. intros l a H. apply raw_round_trip. apply CipherLib.octets_bytes, H. Qed.
Theorem task_out_value : forall a, well_formed a -> be_val (as_task_out a) = magnitude a /\ length (as_task_out a) = (8 * size a)%nat.
Proof. intros a W. destruct (task_out_ok a W) as (A & C & _). split; assumption. Qed.
Theorem raw_buffer_bytes_refuted : ~ (forall buf a, octets buf -> raw_buffer_as_mp buf = Some a -> as_task_out a = buf).
Proof. intro H. specialize (H [7] (num 7)). assert ([0; 0; 0; 0; 0; 0; 0; 7] = [7]) as X; [apply H; [repeat constructor|reflexivity]|discriminate]. Qed.
Example raw_meets : let b := [1; 2; 3; 4; 5; 6; 7; 8; 9] in octets b /\ raw_buffer_as_mp b = Some (mkMp false [0x0203040506070809; 1]).
Proof. split; [repeat constructor|vm_compute; reflexivity]. Qed.

Print Assumptions mp_add_exact.
Print Assumptions mp_sub_exact.
Print Assumptions mp_unsigned_add_exact.
Print Assumptions mp_unsigned_sub_exact.
Print Assumptions mp_mul_exact.
Print Assumptions mp_unsigned_mul_exact.
Print Assumptions mp_equality.
Print Assumptions mp_order_partial.
Print Assumptions mp_order_refuted.
Print Assumptions mp_left_shift.
Print Assumptions mp_right_shift.
Print Assumptions mp_division_partial.
Print Assumptions mp_division_one_digit.
Print Assumptions mp_division_refuted.
Print Assumptions mp_power.
Print Assumptions mp_modular_power_partial.
Print Assumptions mp_modular_power_refuted.
Print Assumptions hex_read_back.
Print Assumptions hex_read.
Print Assumptions raw_buffer_value.
Print Assumptions raw_buffer_back.
Print Assumptions task_out_value.
