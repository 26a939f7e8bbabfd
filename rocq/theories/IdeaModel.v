(* IDEA. *)
From Verif Require Import Words TaskModel ModeModel CipherBase.
Open Scope N_scope.

(* src/kryptos_idea.c:22 kryptos_idea_mul, stored in a kryptos_u16_t *)
Definition idea_mul (x y : N) : N :=
  if x =? 0 then sub16 1 y
  else if y =? 0 then sub16 1 x
  else ((x * y) mod 0x10001) mod 2 ^ 16.

(* src/kryptos_idea.c:63-79 kryptos_idea_128bit_roll: one level of the recursion, rotating the
   128 bits left by one position *)
Definition idea_roll1 (x : N * N * N * N) : N * N * N * N :=
  let '(a, b, c, d) := x in
  (or (shl32 a 1) (shr b 31), or (shl32 b 1) (shr c 31), or (shl32 c 1) (shr d 31), or (shl32 d 1) (shr a 31)).

(* src/kryptos_idea.c:120-128: the eight 16-bit halves of uk *)
Definition idea_halves (x : N * N * N * N) : list N :=
  let '(a, b, c, d) := x in
  [shr a 16; and a 0xffff; shr b 16; and b 0xffff; shr c 16; and c 0xffff; shr d 16; and d 0xffff].

(* src/kryptos_idea.c:120-129: n rounds of the loop, each ending with a roll by 25 *)
Fixpoint idea_expand (n : nat) (uk : N * N * N * N) : list N :=
  match n with
  | O => firstn 4 (idea_halves uk)
  | S m => idea_halves uk ++ idea_expand m (Nat.iter 25 idea_roll1 uk)
  end.

(* src/kryptos_idea.c:81-138 kryptos_idea_ld_user_key, kryptos_idea_key_expander *)
Definition idea_key_expander (key : list N) : list N :=
  let uk := ld_user_key 4 4 16 key in
  idea_expand 6 (nth 0 uk 0, nth 1 uk 0, nth 2 uk 0, nth 3 uk 0).

(* src/kryptos_idea.c:162-175: what is xor-ed to (out[0], out[1]) and to (out[2], out[3]) *)
Definition idea_ma (k4 k5 : N) (s : N * N * N * N) : N * N * N * N :=
  let '(a, b, c, d) := s in
  let y1 := xor a b in
  let z1 := xor c d in
  let y2 := add16 (idea_mul k4 y1) z1 in
  let y2 := idea_mul y2 k5 in
  let z2 := add16 (idea_mul k4 y1) y2 in
  (xor a y2, xor b y2, xor c z2, xor d z2).

(* src/kryptos_idea.c:150-176, the iteration r *)
Definition idea_enc_round (K : list N) (s : N * N * N * N) (r : nat) : N * N * N * N :=
  let '(a, b, c, d) := s in
  let a := idea_mul a (nth r K 0) in
  let d := idea_mul d (nth (r + 3) K 0) in
  let y1 := b in
  let b := add16 c (nth (r + 2) K 0) in
  let c := add16 y1 (nth (r + 1) K 0) in
  idea_ma (nth (r + 4) K 0) (nth (r + 5) K 0) (a, b, c, d).

(* src/kryptos_idea.c:150, 260: r = 0, 6, ..., 42 *)
Definition idea_rounds : list nat := map (fun i => 6 * i)%nat (seq 0 8).

(* src/kryptos_idea.c:140-189 kryptos_idea_block_encrypt *)
Definition idea_encrypt_words (K : list N) (s : N * N * N * N) : N * N * N * N :=
  let '(a, b, c, d) := fold_left (idea_enc_round K) idea_rounds s in
  (idea_mul a (nth 48 K 0), add16 c (nth 49 K 0), add16 b (nth 50 K 0), idea_mul d (nth 51 K 0)).

(* src/kryptos_idea.c:208-219: the do-while loop; a division by zero or an int overflow is UB. The
   values decrease, so a fuel of 16 rounds is enough (out of fuel is UB too). *)
Definition idea_div (a b : N) : outcome N := if b =? 0 then UB else Done (a / b).
Definition idea_muladd (t q u : N) : outcome N := if 2 ^ 31 <=? q * u then UB else Done (add16 t (q * u)).
Fixpoint idea_euclid (fuel : nat) (value y t0 t1 : N) : outcome N :=
  match fuel with
  | O => UB
  | S f =>
      obind (idea_div value y) (fun q =>
      let value := value mod y in
      obind (idea_muladd t0 q t1) (fun t0 =>
      if value =? 1 then Done t0
      else
        obind (idea_div y value) (fun q =>
        let y := y mod value in
        obind (idea_muladd t1 q t0) (fun t1 =>
        if y =? 1 then Done (sub16 1 t1) else idea_euclid f value y t0 t1))))
  end.

(* src/kryptos_idea.c:191-224 kryptos_idea_get_inv_multiplier; values 0 and 1 are left as they are *)
Definition idea_inv (value : N) : outcome N :=
  if value <=? 1 then Done value
  else
    let t1 := (0x10001 / value) mod 2 ^ 16 in
    let y := (0x10001 mod value) mod 2 ^ 16 in
    if y =? 1 then Done (sub16 1 t1) else idea_euclid 16 value y 1 t1.

(* the value stored when the computation is defined *)
Definition idea_inv_val (v : N) : N := match idea_inv v with Done i => i | UB => 0 end.

(* src/kryptos_idea.c:226-235 kryptos_idea_inv_subkeys *)
Definition idea_inv_subkeys (K : list N) : list N :=
  fold_left (fun K w => let K := upd K w (idea_inv_val (nth w K 0)) in
                        upd K (w + 3) (idea_inv_val (nth (w + 3) K 0)))
            (map (fun i => 6 * i)%nat (seq 0 9)) K.

(* src/kryptos_idea.c:260-281, the iteration r *)
Definition idea_dec_round (K : list N) (s : N * N * N * N) (r : nat) : N * N * N * N :=
  let '(a, b, c, d) := idea_ma (nth (r + 4) K 0) (nth (r + 5) K 0) s in
  (idea_mul a (nth r K 0), sub16 c (nth (r + 1) K 0), sub16 b (nth (r + 2) K 0), idea_mul d (nth (r + 3) K 0)).

(* src/kryptos_idea.c:237-293 kryptos_idea_block_decrypt *)
Definition idea_decrypt_words (K : list N) (s : N * N * N * N) : N * N * N * N :=
  let '(a, b, c, d) := s in
  fold_left (idea_dec_round K) (rev idea_rounds)
    (idea_mul a (nth 48 K 0), sub16 c (nth 50 K 0), sub16 b (nth 49 K 0), idea_mul d (nth 51 K 0)).

(* src/kryptos_idea.c:44-61 *)
Definition idea : blockcipher :=
  {| bc_id := IDEA; bc_bs := 8; bc_check := fun _ => Done Success;
     bc_enc := fun key => blk_be 2 4 (on4 (idea_encrypt_words (idea_key_expander key)));
     bc_dec := fun key => blk_be 2 4 (on4 (idea_decrypt_words (idea_inv_subkeys (idea_key_expander key))));
     bc_gcm := GcmNoSupport |}.
