(* BLAKE2s and BLAKE2b. Source: src/kryptos_blake2.c, src/kryptos_types.h:822-849. The functions kryptos_blake2s and kryptos_blake2b
   are the same text but for the word type, the block size and the tables; one definition takes these as parameters. Allocation
   failures are not modelled; message sizes are below 2^60, so that the size_t arithmetic does not wrap. *)
From Verif Require Import Words TaskModel CipherBase StreamModel HashModel UtilModel.
Open Scope N_scope.

(* src/kryptos_blake2.c:17-28 kryptos_blake2_SIGMA_state *)
Definition blake2_sigma : list (list nat) := (
  [[0; 1; 2; 3; 4; 5; 6; 7; 8; 9; 10; 11; 12; 13; 14; 15];
   [14; 10; 4; 8; 9; 15; 13; 6; 1; 12; 0; 2; 11; 7; 5; 3];
   [11; 8; 12; 0; 5; 2; 15; 13; 10; 14; 3; 6; 7; 1; 9; 4];
   [7; 9; 3; 1; 13; 12; 11; 14; 2; 6; 5; 10; 4; 0; 15; 8];
   [9; 0; 5; 7; 2; 4; 10; 15; 14; 1; 11; 12; 6; 8; 3; 13];
   [2; 12; 6; 10; 0; 11; 8; 3; 4; 13; 7; 5; 15; 14; 1; 9];
   [12; 5; 1; 15; 14; 13; 4; 10; 0; 7; 6; 3; 9; 2; 8; 11];
   [13; 11; 7; 14; 12; 1; 3; 9; 5; 0; 15; 4; 8; 6; 2; 10];
   [6; 15; 14; 9; 11; 3; 0; 8; 12; 2; 13; 7; 1; 4; 10; 5];
   [10; 2; 8; 4; 7; 6; 1; 5; 15; 11; 9; 14; 3; 12; 13; 0]])%nat.
(* a call of kryptos_blake2_G: v[a], v[b], v[c], v[d], m[SIGMA(r, x)], m[SIGMA(r', y)] *)
Record g_call := C { c_a : nat; c_b : nat; c_c : nat; c_d : nat; c_r : nat; c_x : nat; c_r' : nat; c_y : nat }.
Arguments C _%nat _%nat _%nat _%nat _%nat _%nat _%nat _%nat.
(* src/kryptos_blake2.c:120-215 *)
Definition blake2b_calls : list g_call :=
  [C 0 4 8 12 0 0 0 1; C 1 5 9 13 0 2 0 3; C 2 6 10 14 0 4 0 5; C 3 7 11 15 0 6 0 7; C 0 5 10 15 0 8 0 9; C 1 6 11 12 0 10 0 11; C 2 7 8 13 0 12 0 13; C 3 4 9 14 0 14 0 15;
   C 0 4 8 12 1 0 1 1; C 1 5 9 13 1 2 1 3; C 2 6 10 14 1 4 1 5; C 3 7 11 15 1 6 1 7; C 0 5 10 15 1 8 1 9; C 1 6 11 12 1 10 1 11; C 2 7 8 13 1 12 1 13; C 3 4 9 14 1 14 1 15;
   C 0 4 8 12 2 0 2 1; C 1 5 9 13 2 2 2 3; C 2 6 10 14 2 4 2 5; C 3 7 11 15 2 6 2 7; C 0 5 10 15 2 8 2 9; C 1 6 11 12 2 10 2 11; C 2 7 8 13 2 12 2 13; C 3 4 9 14 2 14 2 15;
   C 0 4 8 12 3 0 3 1; C 1 5 9 13 3 2 3 3; C 2 6 10 14 3 4 3 5; C 3 7 11 15 3 6 3 7; C 0 5 10 15 3 8 3 9; C 1 6 11 12 3 10 3 11; C 2 7 8 13 3 12 3 13; C 3 4 9 14 3 14 3 15;
   C 0 4 8 12 4 0 4 1; C 1 5 9 13 4 2 4 3; C 2 6 10 14 4 4 4 5; C 3 7 11 15 4 6 4 7; C 0 5 10 15 4 8 4 9; C 1 6 11 12 4 10 4 11; C 2 7 8 13 4 12 4 13; C 3 4 9 14 4 14 4 15;
   C 0 4 8 12 5 0 5 1; C 1 5 9 13 5 2 5 3; C 2 6 10 14 5 4 5 5; C 3 7 11 15 5 6 5 7; C 0 5 10 15 5 8 5 9; C 1 6 11 12 5 10 5 11; C 2 7 8 13 5 12 5 13; C 3 4 9 14 5 14 5 15;
   C 0 4 8 12 6 0 6 1; C 1 5 9 13 6 2 6 3; C 2 6 10 14 6 4 6 5; C 3 7 11 15 6 6 6 7; C 0 5 10 15 6 8 6 9; C 1 6 11 12 6 10 6 11; C 2 7 8 13 6 12 6 13; C 3 4 9 14 6 14 6 15;
   C 0 4 8 12 7 0 7 1; C 1 5 9 13 7 2 7 3; C 2 6 10 14 7 4 7 5; C 3 7 11 15 7 6 7 7; C 0 5 10 15 7 8 7 9; C 1 6 11 12 7 10 7 11; C 2 7 8 13 7 12 7 13; C 3 4 9 14 7 14 7 15;
   C 0 4 8 12 8 0 8 1; C 1 5 9 13 8 2 8 3; C 2 6 10 14 8 4 8 5; C 3 7 11 15 8 6 8 7; C 0 5 10 15 8 8 8 9; C 1 6 11 12 8 10 8 11; C 2 7 8 13 8 12 8 13; C 3 4 9 14 8 14 8 15;
   C 0 4 8 12 9 0 9 1; C 1 5 9 13 9 2 9 3; C 2 6 10 14 9 4 9 5; C 3 7 11 15 9 6 9 7; C 0 5 10 15 9 8 9 9; C 1 6 11 12 9 10 9 11; C 2 7 8 13 9 12 9 13; C 3 4 9 14 9 14 9 15;
   C 0 4 8 12 0 0 0 1; C 1 5 9 13 0 2 0 3; C 2 6 10 14 0 4 0 5; C 3 7 11 15 0 6 0 7; C 0 5 10 15 0 8 0 9; C 1 6 11 12 0 10 0 11; C 2 7 8 13 0 12 0 13; C 3 4 9 14 0 14 0 15;
   C 0 4 8 12 1 0 1 1; C 1 5 9 13 1 2 1 3; C 2 6 10 14 1 4 1 5; C 3 7 11 15 1 6 1 7; C 0 5 10 15 1 8 1 9; C 1 6 11 12 1 10 1 11; C 2 7 8 13 1 12 1 13; C 3 4 9 14 1 14 1 15].
(* src/kryptos_blake2.c:248-327 *)
Definition blake2s_calls : list g_call :=
  [C 0 4 8 12 0 0 0 1; C 1 5 9 13 0 2 0 3; C 2 6 10 14 0 4 0 5; C 3 7 11 15 0 6 0 7; C 0 5 10 15 0 8 0 9; C 1 6 11 12 0 10 0 11; C 2 7 8 13 0 12 0 13; C 3 4 9 14 0 14 0 15;
   C 0 4 8 12 1 0 1 1; C 1 5 9 13 1 2 1 3; C 2 6 10 14 1 4 1 5; C 3 7 11 15 1 6 1 7; C 0 5 10 15 1 8 1 9; C 1 6 11 12 1 10 1 11; C 2 7 8 13 1 12 1 13; C 3 4 9 14 1 14 1 15;
   C 0 4 8 12 2 0 2 1; C 1 5 9 13 2 2 2 3; C 2 6 10 14 2 4 2 5; C 3 7 11 15 2 6 2 7; C 0 5 10 15 2 8 2 9; C 1 6 11 12 2 10 2 11; C 2 7 8 13 2 12 2 13; C 3 4 9 14 2 14 2 15;
   C 0 4 8 12 3 0 3 1; C 1 5 9 13 3 2 3 3; C 2 6 10 14 3 4 3 5; C 3 7 11 15 3 6 3 7; C 0 5 10 15 3 8 3 9; C 1 6 11 12 3 10 3 11; C 2 7 8 13 3 12 3 13; C 3 4 9 14 3 14 3 15;
   C 0 4 8 12 4 0 4 1; C 1 5 9 13 4 2 4 3; C 2 6 10 14 4 4 4 5; C 3 7 11 15 4 6 4 7; C 0 5 10 15 4 8 4 9; C 1 6 11 12 4 10 4 11; C 2 7 8 13 4 12 4 13; C 3 4 9 14 4 14 4 15;
   C 0 4 8 12 5 0 5 1; C 1 5 9 13 5 2 5 3; C 2 6 10 14 5 4 5 5; C 3 7 11 15 5 6 5 7; C 0 5 10 15 5 8 5 9; C 1 6 11 12 5 10 5 11; C 2 7 8 13 5 12 5 13; C 3 4 9 14 5 14 5 15;
   C 0 4 8 12 6 0 6 1; C 1 5 9 13 6 2 6 3; C 2 6 10 14 6 4 6 5; C 3 7 11 15 6 6 6 7; C 0 5 10 15 6 8 6 9; C 1 6 11 12 6 10 6 11; C 2 7 8 13 6 12 6 13; C 3 4 9 14 6 14 6 15;
   C 0 4 8 12 7 0 7 1; C 1 5 9 13 7 2 7 3; C 2 6 10 14 7 4 7 5; C 3 7 11 15 7 6 7 7; C 0 5 10 15 7 8 7 9; C 1 6 11 12 7 10 7 11; C 2 7 8 13 7 12 7 13; C 3 4 9 14 7 14 7 15;
   C 0 4 8 12 8 0 8 1; C 1 5 9 13 8 2 8 3; C 2 6 10 14 8 4 8 5; C 3 7 11 15 8 6 8 7; C 0 5 10 15 8 8 8 9; C 1 6 11 12 8 10 8 11; C 2 7 8 13 8 12 8 13; C 3 4 9 14 8 14 8 15;
   C 0 4 8 12 9 0 9 1; C 1 5 9 13 9 2 9 3; C 2 6 10 14 9 4 9 5; C 3 7 11 15 9 6 9 7; C 0 5 10 15 9 8 9 9; C 1 6 11 12 9 10 9 11; C 2 7 8 13 9 12 9 13; C 3 4 9 14 9 14 9 15].

(* the word type in bytes, KRYPTOS_BLAKE2x_BYTES_PER_BLOCK, kryptos_blake2x_R, kryptos_blake2x_IV, the calls in kryptos_blake2x_F,
   kryptos_get_uNN_as_little_endian, kryptos_uNN_rev, KRYPTOS_BLAKE2x_HASH_SIZE *)
Record blake2_params := mkBlake2 {
  b_wb : nat; b_bb : nat; b_R : list N; b_IV : list N; b_calls : list g_call; b_get : list N -> N; b_rev : N -> N; b_max : N
}.
(* src/kryptos_blake2.c:30-41, 65-75 *)
Definition blake2b := mkBlake2 8 128 [32; 24; 16; 63]
  [0x6A09E667F3BCC908; 0xBB67AE8584CAA73B; 0x3C6EF372FE94F82B; 0xA54FF53A5F1D36F1;
   0x510E527FADE682D1; 0x9B05688C2B3E6C1F; 0x1F83D9ABFB41BD6B; 0x5BE0CD19137E2179] blake2b_calls get_u64_le u64_rev 64.
Definition blake2s := mkBlake2 4 64 [16; 12; 8; 7]
  [0x6A09E667; 0xBB67AE85; 0x3C6EF372; 0xA54FF53A; 0x510E527F; 0x9B05688C; 0x1F83D9AB; 0x5BE0CD19] blake2s_calls get_u32_le u32_rev 32.
Definition b_w (p : blake2_params) : N := 8 * N.of_nat (b_wb p).

(* src/kryptos_blake2.c:79 kryptos_blake2_ROT *)
Definition blake2_ROT (w x y : N) : N := or (shr x y) (shlw w x (w - y)).
(* src/kryptos_blake2.c:81-94 kryptos_blake2_G *)
Definition blake2_G (w : N) (R : list N) (a b c d : nat) (x y : N) (v : list N) : list N :=
  let g v i := nth i v 0 in
  let v := upd v a (addw w (g v a) (addw w (g v b) x)) in
  let v := upd v d (xor (g v d) (g v a)) in
  let v := upd v d (blake2_ROT w (g v d) (nth 0 R 0)) in
  let v := upd v c (addw w (g v c) (g v d)) in
  let v := upd v b (xor (g v b) (g v c)) in
  let v := upd v b (blake2_ROT w (g v b) (nth 1 R 0)) in
  let v := upd v a (addw w (g v a) (addw w (g v b) y)) in
  let v := upd v d (xor (g v d) (g v a)) in
  let v := upd v d (blake2_ROT w (g v d) (nth 2 R 0)) in
  let v := upd v c (addw w (g v c) (g v d)) in
  let v := upd v b (xor (g v b) (g v c)) in
  upd v b (blake2_ROT w (g v b) (nth 3 R 0)).
(* src/kryptos_blake2.c:98-224 kryptos_blake2b_F, 226-336 kryptos_blake2s_F: the new h *)
Definition blake2_F (p : blake2_params) (h m : list N) (t0 t1 : N) (f : bool) : list N :=
  let v := h ++ b_IV p in
  let v := upd v 12 (xor (nth 12 v 0) t0) in
  let v := upd v 13 (xor (nth 13 v 0) t1) in
  let v := if f then upd v 14 (notw (b_w p) (nth 14 v 0)) else v in
  let M r x := nth (nth x (nth r blake2_sigma []) 0%nat) m 0 in
  let v := fold_left (fun v k => blake2_G (b_w p) (b_R p) (c_a k) (c_b k) (c_c k) (c_d k) (M (c_r k) (c_x k)) (M (c_r' k) (c_y k)) v) (b_calls p) v in
  map (fun i => xor (nth i h 0) (xor (nth i v 0) (nth (i + 8) v 0))) (seq 0 8).
(* src/kryptos_blake2.c:338-350 kryptos_blake2_init *)
Definition blake2_init (p : blake2_params) (kk nn : N) : list N :=
  upd (b_IV p) 0 (xor (nth 0 (b_IV p) 0) ((xor (xor 0x01010000 (shlw 64 kk 8)) nn) mod 2 ^ b_w p)).
(* src/kryptos_blake2.c:352-368 kryptos_blake2_get_next_m_chunk; l: the bytes from h to t. The word and the bytes left *)
Definition next_m (p : blake2_params) (l : list N) : N * list N :=
  match l with
  | [] => (0, [])
  | _ => if Nat.leb (b_wb p) (length l) then (b_get p l, skipn (b_wb p) l)
         else (b_rev p (fold_left (fun m b => or (shlw (b_w p) m 8) b) l 0), [])
  end.
(* src/kryptos_blake2.c:694-709, 722-737, 824-839, 852-867: m[0] .. m[15] and the bytes left *)
Definition load_m (p : blake2_params) (l : list N) : list N * list N :=
  fold_left (fun '(m, l) _ => let '(x, l') := next_m p l in (m ++ [x], l')) (seq 0 16) ([], l).
(* memcpy(d + off, s, length s); UB: outside the block *)
Definition copy_in (d : list N) (off : nat) (s : list N) : outcome (list N) :=
  if Nat.ltb (length d) (off + length s) then UB else Done (firstn off d ++ s ++ skipn (off + length s) d).
(* src/kryptos_blake2.c:650-778 kryptos_blake2s, 780-908 kryptos_blake2b: h, nn bytes. key: kk bytes, input: ll bytes. *)
Definition blake2_hash (p : blake2_params) (nn : N) (key input : list N) : outcome (list N) :=
  let kk := N.of_nat (length key) in
  let keyed := 0 <? kk in
  let dd := ((if keyed then b_bb p else 0) + length input)%nat in
  let dd := if Nat.eqb dd 0 then 1%nat else dd in
  let dd := (dd + (b_bb p - dd mod b_bb p) mod b_bb p)%nat in
  let head := repeat 0 dd in
  let dd := (dd / b_bb p)%nat in
  obind (if keyed then obind (copy_in head 0 key) (fun d => copy_in d (b_bb p) input) else copy_in head 0 input) (fun head =>
  let '(m, l) := load_m p head in
  let '(h, m, _, _, _) := fold_left (fun '(h, m, t0, t1, l) _ =>
      let h := blake2_F p h m t0 t1 false in
      let t0 := addw (b_w p) t0 (N.of_nat (b_bb p)) in
      let t1 := if t0 <? N.of_nat (b_bb p) then addw (b_w p) t1 1 else t1 in
      let '(m, l) := load_m p l in (h, m, t0, t1, l)) (seq 0 (dd - 1)) (blake2_init p kk nn, m, N.of_nat (b_bb p), 0, l) in
  let t0 := (if keyed then N.of_nat (length input) + N.of_nat (b_bb p) else N.of_nat (length input)) mod 2 ^ b_w p in
  let h := blake2_F p h m t0 0 true in
  Done (firstn (N.to_nat nn) (concat (map (fun x => be_bytes (b_wb p) (b_rev p x)) h)))).

(* src/kryptos_blake2.c:417-448, 539-602: 64 bit words of h, most significant byte first, in hexadecimal *)
Definition blake2_hex (z : list N) : list N :=
  concat (map (fun i => word_to_hex 8 (be_val (firstn 8 (skipn (8 * i) z)))) (seq 0 (length z / 8))).
(* src/kryptos_types.h:822-849 with src/kryptos_blake2.c:378-450 (blake2s256), 500-604 (blake2b512). inp, n: in, in_size; when the
   result is not Success, out and out_size of the task are not written. *)
Definition blake2_processor (p : blake2_params) (to_hex : bool) (key : option (list N)) (kn : N) (inp : option (list N)) (n : N) : outcome hash_run :=
  match inp with
  | None => Done (mkHashRun InvalidParams None 0)
  | Some _ =>
      if b_max p <? kn then Done (mkHashRun KeyError None 0)
      else obind (buf key kn) (fun k => obind (buf inp n) (fun m => obind (blake2_hash p (b_max p) k m) (fun z =>
      let out := if to_hex then blake2_hex z else z in
      Done (mkHashRun Success (Some out) (N.of_nat (length out))))))
  end.
(* src/kryptos_types.h:822-849 with src/kryptos_blake2.c:454-494 (blake2sN), 608-648 (blake2bN). nn: out_size before the call, which
   failures leave as it is. *)
Definition blake2N_processor (p : blake2_params) (to_hex : bool) (nn : N) (key : option (list N)) (kn : N) (inp : option (list N)) (n : N) : outcome hash_run :=
  match inp with
  | None => Done (mkHashRun InvalidParams None nn)
  | Some _ =>
      if b_max p <? kn then Done (mkHashRun KeyError None nn)
      else if (nn =? 0) || (b_max p <? nn) then Done (mkHashRun ProcessError None nn)
      else obind (buf key kn) (fun k => obind (buf inp n) (fun m => obind (blake2_hash p nn k m) (fun z =>
      if to_hex then
        match u8_ptr_to_hex z with
        | Some out => Done (mkHashRun Success (Some out) (N.of_nat (length out)))
        | None => Done (mkHashRun Success None nn)
        end
      else Done (mkHashRun Success (Some z) nn))))
  end.
