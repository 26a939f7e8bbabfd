(* PRESENT with 80 and 128-bit keys, src/kryptos_present.c *)
From Verif Require Import Words TaskModel ModeModel CipherBase.
Open Scope N_scope.

(* src/kryptos_present.c:26-28 *)
Definition present_S : list N :=
  [12; 5; 6; 11; 9; 0; 10; 13; 3; 14; 15; 8; 4; 7; 1; 2]%N.

(* src/kryptos_present.c:30-32 *)
Definition present_S_1 : list N :=
  [5; 14; 15; 8; 12; 1; 2; 13; 11; 4; 6; 3; 0; 7; 9; 10]%N.

(* src/kryptos_present.c:34-39 *)
Definition present_P : list N :=
  [0; 16; 32; 48; 1; 17; 33; 49; 2; 18; 34; 50; 3; 19; 35; 51;
   4; 20; 36; 52; 5; 21; 37; 53; 6; 22; 38; 54; 7; 23; 39; 55;
   8; 24; 40; 56; 9; 25; 41; 57; 10; 26; 42; 58; 11; 27; 43; 59;
   12; 28; 44; 60; 13; 29; 45; 61; 14; 30; 46; 62; 15; 31; 47; 63]%N.


(* src/kryptos_present.c:59-75 kryptos_present_sBoxLayer (t = S), 79-95 kryptos_present_sBoxLayer_1
   (t = S_1): the s-box on each of the 16 nibbles *)
Definition present_sbox_layer (t : list N) (s : N) : N :=
  fold_left (fun v i => or v (shlw 64 (nthN t (and (shr s (4 * i)) 0xF)) (4 * i))) (range 16) 0.
(* src/kryptos_present.c:77, 103-122 kryptos_present_pi, kryptos_present_pLayer *)
Definition present_p_layer (s : N) : N :=
  fold_left (fun v i => or v (shlw 64 (shr (and s (shlw 64 1 i)) i) (nthN present_P i))) (range 64) 0.
(* src/kryptos_present.c:100-101, 124-144 kryptos_present_pi_1, kryptos_present_pLayer_1 *)
Definition present_p_layer_1 (s : N) : N :=
  fold_left (fun v i => or v (shlw 64 (shr (and s (shlw 64 1 (nthN present_P i))) (nthN present_P i)) i)) (range 64) 0.

(* src/kryptos_present.c:161-165 kryptos_present_round *)
Definition present_round (K : list N) (s : N) (i : nat) : N :=
  present_p_layer (present_sbox_layer present_S (xor s (nth i K 0))).
(* src/kryptos_present.c:167-171 kryptos_present_round_1 *)
Definition present_round_1 (K : list N) (s : N) (i : nat) : N :=
  xor (present_sbox_layer present_S_1 (present_p_layer_1 s)) (nth i K 0).

(* src/kryptos_present.c:425-478 kryptos_present_block_encrypt: rounds 0 .. 30, then sub-key 31 *)
Definition present_encrypt_word (K : list N) (s : N) : N :=
  xor (fold_left (present_round K) (seq 0 31) s) (nth 31 K 0).
(* src/kryptos_present.c:480-534 kryptos_present_block_decrypt *)
Definition present_decrypt_word (K : list N) (s : N) : N :=
  fold_left (present_round_1 K) (rev (seq 0 31)) (xor s (nth 31 K 0)).

(* the key register: h and l, l of lw = 16 (80-bit keys) or 64 (128-bit keys) bits.
   src/kryptos_present.c:228-238 kryptos_present_rotl_u80, 240-250 kryptos_present_rotl_u128, one step *)
Definition present_rotl1 (lw : N) (k : N * N) : N * N :=
  let '(h, l) := k in
  (or (shlw 64 h 1) (shr l (lw - 1)), or (shlw lw l 1) (shr h 63)).
(* src/kryptos_present.c:307-312 kryptos_present_ksched_ii *)
Definition present_ksched_ii (lw : N) (k : N * N) : N * N :=
  let '(h, l) := k in
  let h := or (shlw 64 (nthN present_S (shr h 60)) 60) (and h 0x0FFFFFFFFFFFFFFF) in
  let h := if lw =? 64
           then or (shlw 64 (nthN present_S (and (shr h 56) 0xF)) 56) (and h 0xF0FFFFFFFFFFFFFF)
           else h in
  (h, l).
(* src/kryptos_present.c:342-360 kryptos_present_ksched_iii *)
Definition present_ksched_iii (lw : N) (r : N) (k : N * N) : N * N :=
  let '(h, l) := k in
  if lw =? 16 then
    let u := xor (or (shlw 64 (and h 0xF) 1) (shr l 15)) r in
    (or (and h 0xFFFFFFFFFFFFFFF0) (shr u 1), or (and l 0x7FFF) (shlw 16 (and u 1) 15))
  else
    let u := xor (or (shlw 64 (and h 7) 2) (shr l 62)) r in
    (or (and h 0xFFFFFFFFFFFFFFF8) (shr u 2), or (and l 0x3FFFFFFFFFFFFFFF) (shlw 64 (and u 3) 62)).
(* src/kryptos_present.c:366-371 kryptos_present_mk_sk for sub-keys r, r+1, ... (n of them) *)
Fixpoint present_sks (lw : N) (n : nat) (r : N) (k : N * N) : list N :=
  match n with
  | O => []
  | S m => let k := present_ksched_iii lw r (present_ksched_ii lw (Nat.iter 61 (present_rotl1 lw) k)) in
           fst k :: present_sks lw m (r + 1) k
  end.
(* src/kryptos_present.c:252-423 kryptos_present_key_sched. The key is copied into a buffer of 128
   bytes without looking at its size (lines 255-260): undefined for longer keys. *)
Definition present_key_sched (lw : N) (key : list N) : outcome (list N) :=
  if Nat.ltb 128 (length key) then UB
  else
    let buf := key ++ repeat 0 (128 - length key) in
    let h := be_val (slice buf 0 8) in
    let l := be_val (slice buf 8 (if lw =? 16 then 2 else 8)) in
    Done (h :: present_sks lw 31 1 (h, l)).

Definition on1 (f : N -> N) (ws : list N) : list N := map f ws.

(* src/kryptos_present.c:190-226; lw = 16 for present80, 64 for present128 *)
Definition present (lw : N) : blockcipher :=
  let sub key := match present_key_sched lw key with Done K => K | UB => [] end in
  {| bc_id := PRESENT; bc_bs := 8;
     bc_check := fun key => obind (present_key_sched lw key) (fun _ => Done Success);
     bc_enc := fun key => blk_be 8 1 (on1 (present_encrypt_word (sub key)));
     bc_dec := fun key => blk_be 8 1 (on1 (present_decrypt_word (sub key)));
     bc_gcm := GcmNoSupport |}.
Definition present80 := present 16.
Definition present128 := present 64.
