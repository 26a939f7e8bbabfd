(* The hashes built with KRYPTOS_IMPL_HASH_MESSAGE_PROCESSOR: MD4, MD5, SHA-1, SHA-2, RIPEMD (Tiger and Whirlpool are in
   TigerModel.v and WhirlModel.v). Sources: src/kryptos_types.h:811-968, src/kryptos_hash_common.c, src/kryptos_hex.c,
   src/kryptos_md4.c, src/kryptos_md5.c, src/kryptos_sha1.c, src/kryptos_sha224_256.c, src/kryptos_sha384_512.c,
   src/kryptos_ripemd128_160.c. Allocation failures are not modelled. *)
From Verif Require Import Words TaskModel CipherBase StreamModel.
Open Scope N_scope.

Notation add64 := (addw 64).
Notation rotr64 := (rotr 64).
Notation not32 := (notw 32).
Notation not64 := (notw 64).

(* ------------------------------------------------------------------ the frame *)
(* What distinguishes one hash of this family from another. hp_wb: bytes per word (4: the _u32_ functions of
   kryptos_hash_common.c, 8: the _u64_ ones); hp_nr: words per block; hp_tok: padding token; hp_off: LEN_BLOCK_OFFSET;
   hp_fix: what do_block does to the block after the length was stored in it; hp_ord: what it does to every block before
   compressing; hp_init: the words of the initial state; hp_comp: the compression of one block into the state; hp_out:
   the words of the state that are written to the output, each most significant byte first. *)
Record hash_params := mkHash {
  hp_wb : nat; hp_nr : nat; hp_tok : N; hp_off : nat; hp_fix : list N -> list N; hp_ord : list N -> list N;
  hp_init : list N; hp_comp : list N -> list N -> list N; hp_out : list N -> list N }.

(* src/kryptos_hash_common.c:37-52 kryptos_hash_ld_u8buf_as_u32_blocks (wb = 4), 74-89 ..._u64_blocks (wb = 8). blk is the
   block before the call: kept when the buffer is too large. block_index_decision_table[b] is b / wb. *)
Definition ld_blocks (wb nr : nat) (blk buf : list N) : list N :=
  if Nat.ltb (nr * wb) (length buf) then blk
  else fold_left (fun inp b => upd inp (b / wb) (or (shlw (8 * N.of_nat wb) (nth (b / wb) inp 0) 8) (nth b buf 0)))
         (seq 0 (length buf)) (repeat 0 nr).

(* src/kryptos_hash_common.c:27-28 (wb = 4) and 65 (wb = 8): the message length in bits goes to the end of the block *)
Definition put_len (wb nr : nat) (blk : list N) (total : N) : list N :=
  if Nat.eqb wb 4
  then upd (upd blk (nr - 2) (shr total 32)) (nr - 1) (and total 0x00000000ffffffff)
  else upd blk (nr - 1) total.
(* src/kryptos_hash_common.c:16-35 kryptos_hash_apply_pad_on_u32_block, 54-72 kryptos_hash_apply_pad_on_u64_block; the
   returned boolean is paddin2times *)
Definition apply_pad (h : hash_params) (blk : list N) (curr : nat) (total : N) (p2 : bool) : list N * bool :=
  let w := 8 * N.of_nat (hp_wb h) in
  let b := (curr / hp_wb h)%nat in
  let blk :=
    if p2 then blk
    else upd blk b (shlw w (or (shlw w (nth b blk 0) 8) (hp_tok h)) (w - 8 - 8 * N.of_nat (curr mod hp_wb h))) in
  if (Nat.ltb curr (hp_off h) || p2)%bool then (put_len (hp_wb h) (hp_nr h) blk total, false) else (blk, true).

(* the fields block, state and paddin2times of the context *)
Record hash_ctx := mkCtx { hc_blk : list N; hc_st : list N; hc_p2 : bool }.

(* The common shape of kryptos_md4_do_block (src/kryptos_md4.c:140-250), kryptos_md5_do_block (src/kryptos_md5.c:126-247),
   kryptos_sha1_do_block (src/kryptos_sha1.c:142-215), kryptos_sha224_256_do_block (src/kryptos_sha224_256.c:250-324),
   kryptos_sha384_512_do_block (src/kryptos_sha384_512.c:245-320), kryptos_ripemd128_do_block and
   kryptos_ripemd160_do_block (src/kryptos_ripemd128_160.c:209-397, 399-621), kryptos_tiger_do_block
   (src/kryptos_tiger.c:501-538), kryptos_whirlpool_do_block (src/kryptos_whirlpool.c:665-863): pad when the block is not
   full, compress, and when the length did not fit call yourself on a zero block. depth bounds that recursion; UB when
   it is exhausted, which HashProofs.v shows not to happen for depth 2. *)
Fixpoint do_block (h : hash_params) (depth : nat) (curr : nat) (total : N) (c : hash_ctx) : outcome hash_ctx :=
  match depth with
  | O => UB
  | S d =>
      let '(blk, p2) :=
        if Nat.ltb curr (hp_nr h * hp_wb h)
        then let '(blk, p2) := apply_pad h (hc_blk c) curr total (hc_p2 c) in
             (if p2 then blk else hp_fix h blk, p2)
        else (hc_blk c, hc_p2 c) in
      let blk := hp_ord h blk in
      let c := mkCtx blk (hp_comp h (hc_st c) blk) p2 in
      if p2 then do_block h d curr total (mkCtx (ld_blocks (hp_wb h) (hp_nr h) (hc_blk c) []) (hc_st c) p2)
      else Done c
  end.

(* src/kryptos_types.h:887-918 KRYPTOS_IMPL_HASH_MESSAGE_PROCESSOR: load the buffer, do_block *)
Definition flush (h : hash_params) (total : N) (buf : list N) (c : hash_ctx) : outcome hash_ctx :=
  do_block h 2 (length buf) total (mkCtx (ld_blocks (hp_wb h) (hp_nr h) (hc_blk c) buf) (hc_st c) (hc_p2 c)).
(* one turn of the loop for i != l; buf is the first curr_len bytes of buffer, the others are zero and never read *)
Definition hash_byte (h : hash_params) (total : N) (s : outcome (list N * hash_ctx)) (b : N) : outcome (list N * hash_ctx) :=
  obind s (fun '(buf, c) =>
  if Nat.ltb (length buf) (hp_nr h * hp_wb h) then Done (buf ++ [b], c)
  else obind (flush h total buf c) (fun c' => Done ([b], c'))).
(* src/kryptos_types.h:887-918: the loop over the message bytes, and its last turn (i = l); the empty message takes the
   other branch of the if, which does the same as the last turn with an empty buffer. The block array is
   uninitialised before the first load; it is not read. *)
Definition process_message (h : hash_params) (total : N) (m : list N) : outcome (list N) :=
  obind (fold_left (hash_byte h total) m (Done ([], mkCtx (repeat 0 (hp_nr h)) (hp_init h) false))) (fun '(buf, c) =>
  obind (flush h total buf c) (fun c' => Done (hc_st c'))).

(* src/kryptos_hex.c:14 kryptos_hex_nibble2ascii *)
Definition nibble2ascii (n : N) : N := if n <=? 9 then 48 + n else 55 + n.
(* src/kryptos_hex.c:43-57 kryptos_u32_to_hex (wb = 4), 59-81 kryptos_u64_to_hex (wb = 8), without the final NUL; the first
   nibble is not masked, it is below 16 already *)
Definition word_to_hex (wb : nat) (x : N) : list N :=
  map (fun i => nibble2ascii (and (shr x (4 * N.of_nat (2 * wb - 1 - i))) 0xf)) (seq 0 (2 * wb)).

(* What a hash processor leaves in the task: result, out, out_size *)
Record hash_run := mkHashRun { hr_result : result; hr_out : option (list N); hr_out_size : N }.
(* src/kryptos_types.h:822-849 KRYPTOS_IMPL_HASH_PROCESSOR and its instances (e.g. src/kryptos_sha1.c:96-131). inp and n
   are in and in_size. On InvalidParams out and out_size of the task are not written. *)
Definition hash_processor (h : hash_params) (to_hex : bool) (inp : option (list N)) (n : N) : outcome hash_run :=
  match inp with
  | None => Done (mkHashRun InvalidParams None 0)
  | Some _ =>
      let total := shlw 64 n 3 in
      obind (buf inp (shr total 3)) (fun m =>
      obind (process_message h total m) (fun st =>
      let out := if to_hex then concat (map (word_to_hex (hp_wb h)) (hp_out h st)) else store_be (hp_wb h) (hp_out h st) in
      Done (mkHashRun Success (Some out) (N.of_nat (length out)))))
  end.

(* ------------------------------------------------------------------ MD4, MD5, RIPEMD *)
(* kryptos_md4_u32_rev, kryptos_md5_u32_rev, kryptos_ripemd_u32_rev: src/kryptos_md4.c:40, src/kryptos_md5.c:29,
   src/kryptos_ripemd128_160.c:27 *)
Definition rev_u32 (x : N) : N :=
  or (or (or (shr x 24) (shr (and x 0x00FF0000) 8)) (shl32 (and x 0x0000FF00) 8)) (shl32 x 24).
(* src/kryptos_md4.c:149-155, src/kryptos_md5.c:134-138, src/kryptos_ripemd128_160.c:217-221, 407-411: exchange and reverse
   the two length words *)
Definition swap_len (blk : list N) : list N :=
  let a := nth 14 blk 0 in
  let blk := upd blk 14 (rev_u32 (nth 15 blk 0)) in
  upd blk 15 (rev_u32 a).

(* a call of one of the step macros: side (true for the variables A_ .. E_), variables (A = 0 .. E = 4) in the order of the
   macro parameters a, b, c, d (, e), round function, index of the block word, constant, rotation *)
Record line := L { l_side : bool; l_var : list nat; l_f : nat; l_x : nat; l_k : N; l_s : N }.
Arguments L _ _%nat _%nat _%nat _ _.

(* src/kryptos_md4.c:20-24 *)
Definition md4_f (f : nat) (x y z : N) : N :=
  match f with
  | 0%nat => or (and x y) (and (not32 x) z)
  | 1%nat => or (or (and x y) (and x z)) (and y z)
  | _ => xor (xor x y) z
  end.
(* src/kryptos_md5.c:19-25 *)
Definition md5_f (f : nat) (x y z : N) : N :=
  match f with
  | 0%nat => or (and x y) (and (not32 x) z)
  | 1%nat => or (and x z) (and y (not32 z))
  | 2%nat => xor (xor x y) z
  | _ => xor y (or x (not32 z))
  end.
(* src/kryptos_ripemd128_160.c:17-25 *)
Definition rmd_f (f : nat) (x y z : N) : N :=
  match f with
  | 0%nat => xor (xor x y) z
  | 1%nat => or (and x y) (and (not32 x) z)
  | 2%nat => xor (or x (not32 y)) z
  | 3%nat => or (and x z) (and y (not32 z))
  | _ => xor x (or y (not32 z))
  end.
Definition var (v : list N) (l : line) (i : nat) : N := nth (nth i (l_var l) 0%nat) v 0.
(* a + f(b, c, d) + x + k *)
Definition line_sum (f : nat -> N -> N -> N -> N) (blk v : list N) (l : line) : N :=
  add32 (add32 (add32 (var v l 0) (f (l_f l) (var v l 1) (var v l 2) (var v l 3))) (nth (l_x l) blk 0)) (l_k l).
(* src/kryptos_md4.c:38 kryptos_md4_step, src/kryptos_ripemd128_160.c:46-47 kryptos_ripemd128_line_proc *)
Definition md4_step f (blk v : list N) (l : line) : list N :=
  upd v (nth 0 (l_var l) 0%nat) (rotl32 (line_sum f blk v l) (l_s l)).
(* src/kryptos_md5.c:31 kryptos_md5_step *)
Definition md5_step (blk v : list N) (l : line) : list N :=
  upd v (nth 0 (l_var l) 0%nat) (add32 (var v l 1) (rotl32 (line_sum md5_f blk v l) (l_s l))).
(* src/kryptos_ripemd128_160.c:43-44 kryptos_ripemd160_line_proc *)
Definition rmd160_step (blk v : list N) (l : line) : list N :=
  let v := upd v (nth 0 (l_var l) 0%nat) (add32 (rotl32 (line_sum rmd_f blk v l) (l_s l)) (var v l 4)) in
  upd v (nth 2 (l_var l) 0%nat) (rotl32 (var v l 2) 10).
(* one call, on the two sets of variables *)
Definition on_side (step : list N -> line -> list N) (v : list N * list N) (l : line) : list N * list N :=
  if l_side l then (fst v, step (snd v) l) else (step (fst v) l, snd v).
(* ctx->state[i] += v[i] *)
Definition add_state (w : N) (st v : list N) : list N := map (fun p => addw w (fst p) (snd p)) (combine st v).

(* src/kryptos_md4.c:185-236 the calls of kryptos_md4_step, in program order *)
Definition md4_lines : list line :=
  [L false [0; 1; 2; 3]%nat 0 0 0 3; L false [3; 0; 1; 2]%nat 0 1 0 7;
   L false [2; 3; 0; 1]%nat 0 2 0 11; L false [1; 2; 3; 0]%nat 0 3 0 19;
   L false [0; 1; 2; 3]%nat 0 4 0 3; L false [3; 0; 1; 2]%nat 0 5 0 7;
   L false [2; 3; 0; 1]%nat 0 6 0 11; L false [1; 2; 3; 0]%nat 0 7 0 19;
   L false [0; 1; 2; 3]%nat 0 8 0 3; L false [3; 0; 1; 2]%nat 0 9 0 7;
   L false [2; 3; 0; 1]%nat 0 10 0 11; L false [1; 2; 3; 0]%nat 0 11 0 19;
   L false [0; 1; 2; 3]%nat 0 12 0 3; L false [3; 0; 1; 2]%nat 0 13 0 7;
   L false [2; 3; 0; 1]%nat 0 14 0 11; L false [1; 2; 3; 0]%nat 0 15 0 19;
   L false [0; 1; 2; 3]%nat 1 0 0x5A827999 3; L false [3; 0; 1; 2]%nat 1 4 0x5A827999 5;
   L false [2; 3; 0; 1]%nat 1 8 0x5A827999 9; L false [1; 2; 3; 0]%nat 1 12 0x5A827999 13;
   L false [0; 1; 2; 3]%nat 1 1 0x5A827999 3; L false [3; 0; 1; 2]%nat 1 5 0x5A827999 5;
   L false [2; 3; 0; 1]%nat 1 9 0x5A827999 9; L false [1; 2; 3; 0]%nat 1 13 0x5A827999 13;
   L false [0; 1; 2; 3]%nat 1 2 0x5A827999 3; L false [3; 0; 1; 2]%nat 1 6 0x5A827999 5;
   L false [2; 3; 0; 1]%nat 1 10 0x5A827999 9; L false [1; 2; 3; 0]%nat 1 14 0x5A827999 13;
   L false [0; 1; 2; 3]%nat 1 3 0x5A827999 3; L false [3; 0; 1; 2]%nat 1 7 0x5A827999 5;
   L false [2; 3; 0; 1]%nat 1 11 0x5A827999 9; L false [1; 2; 3; 0]%nat 1 15 0x5A827999 13;
   L false [0; 1; 2; 3]%nat 2 0 0x6ED9EBA1 3; L false [3; 0; 1; 2]%nat 2 8 0x6ED9EBA1 9;
   L false [2; 3; 0; 1]%nat 2 4 0x6ED9EBA1 11; L false [1; 2; 3; 0]%nat 2 12 0x6ED9EBA1 15;
   L false [0; 1; 2; 3]%nat 2 2 0x6ED9EBA1 3; L false [3; 0; 1; 2]%nat 2 10 0x6ED9EBA1 9;
   L false [2; 3; 0; 1]%nat 2 6 0x6ED9EBA1 11; L false [1; 2; 3; 0]%nat 2 14 0x6ED9EBA1 15;
   L false [0; 1; 2; 3]%nat 2 1 0x6ED9EBA1 3; L false [3; 0; 1; 2]%nat 2 9 0x6ED9EBA1 9;
   L false [2; 3; 0; 1]%nat 2 5 0x6ED9EBA1 11; L false [1; 2; 3; 0]%nat 2 13 0x6ED9EBA1 15;
   L false [0; 1; 2; 3]%nat 2 3 0x6ED9EBA1 3; L false [3; 0; 1; 2]%nat 2 11 0x6ED9EBA1 9;
   L false [2; 3; 0; 1]%nat 2 7 0x6ED9EBA1 11; L false [1; 2; 3; 0]%nat 2 15 0x6ED9EBA1 15].

(* src/kryptos_md5.c:164-233 the calls of kryptos_md5_step, in program order *)
Definition md5_lines : list line :=
  [L false [0; 1; 2; 3]%nat 0 0 0xD76AA478 7; L false [3; 0; 1; 2]%nat 0 1 0xE8C7B756 12;
   L false [2; 3; 0; 1]%nat 0 2 0x242070DB 17; L false [1; 2; 3; 0]%nat 0 3 0xC1BDCEEE 22;
   L false [0; 1; 2; 3]%nat 0 4 0xF57C0FAF 7; L false [3; 0; 1; 2]%nat 0 5 0x4787C62A 12;
   L false [2; 3; 0; 1]%nat 0 6 0xA8304613 17; L false [1; 2; 3; 0]%nat 0 7 0xFD469501 22;
   L false [0; 1; 2; 3]%nat 0 8 0x698098d8 7; L false [3; 0; 1; 2]%nat 0 9 0x8B44F7AF 12;
   L false [2; 3; 0; 1]%nat 0 10 0xFFFF5BB1 17; L false [1; 2; 3; 0]%nat 0 11 0x895CD7BE 22;
   L false [0; 1; 2; 3]%nat 0 12 0x6B901122 7; L false [3; 0; 1; 2]%nat 0 13 0xFD987193 12;
   L false [2; 3; 0; 1]%nat 0 14 0xA679438E 17; L false [1; 2; 3; 0]%nat 0 15 0x49B40821 22;
   L false [0; 1; 2; 3]%nat 1 1 0xF61E2562 5; L false [3; 0; 1; 2]%nat 1 6 0xC040B340 9;
   L false [2; 3; 0; 1]%nat 1 11 0x265E5A51 14; L false [1; 2; 3; 0]%nat 1 0 0xE9B6C7AA 20;
   L false [0; 1; 2; 3]%nat 1 5 0xD62F105D 5; L false [3; 0; 1; 2]%nat 1 10 0x02441453 9;
   L false [2; 3; 0; 1]%nat 1 15 0xD8A1E681 14; L false [1; 2; 3; 0]%nat 1 4 0xE7D3FBC8 20;
   L false [0; 1; 2; 3]%nat 1 9 0x21E1CDE6 5; L false [3; 0; 1; 2]%nat 1 14 0xC33707D6 9;
   L false [2; 3; 0; 1]%nat 1 3 0xF4D50D87 14; L false [1; 2; 3; 0]%nat 1 8 0x455A14ED 20;
   L false [0; 1; 2; 3]%nat 1 13 0xA9E3E905 5; L false [3; 0; 1; 2]%nat 1 2 0xFCEFA3f8 9;
   L false [2; 3; 0; 1]%nat 1 7 0x676F02D9 14; L false [1; 2; 3; 0]%nat 1 12 0x8D2A4C8A 20;
   L false [0; 1; 2; 3]%nat 2 5 0xFFFA3942 4; L false [3; 0; 1; 2]%nat 2 8 0x8771F681 11;
   L false [2; 3; 0; 1]%nat 2 11 0x6D9D6122 16; L false [1; 2; 3; 0]%nat 2 14 0xFDE5380C 23;
   L false [0; 1; 2; 3]%nat 2 1 0xA4BEEA44 4; L false [3; 0; 1; 2]%nat 2 4 0x4BDECFA9 11;
   L false [2; 3; 0; 1]%nat 2 7 0xF6BB4B60 16; L false [1; 2; 3; 0]%nat 2 10 0xBEBFBC70 23;
   L false [0; 1; 2; 3]%nat 2 13 0x289B7EC6 4; L false [3; 0; 1; 2]%nat 2 0 0xEAA127FA 11;
   L false [2; 3; 0; 1]%nat 2 3 0xD4EF3085 16; L false [1; 2; 3; 0]%nat 2 6 0x04881D05 23;
   L false [0; 1; 2; 3]%nat 2 9 0xD9D4D039 4; L false [3; 0; 1; 2]%nat 2 12 0xE6DB99E5 11;
   L false [2; 3; 0; 1]%nat 2 15 0x1FA27CF8 16; L false [1; 2; 3; 0]%nat 2 2 0xC4AC5665 23;
   L false [0; 1; 2; 3]%nat 3 0 0xF4292244 6; L false [3; 0; 1; 2]%nat 3 7 0x432AFF97 10;
   L false [2; 3; 0; 1]%nat 3 14 0xAB9423A7 15; L false [1; 2; 3; 0]%nat 3 5 0xFC93A039 21;
   L false [0; 1; 2; 3]%nat 3 12 0x655B59C3 6; L false [3; 0; 1; 2]%nat 3 3 0x8F0CCC92 10;
   L false [2; 3; 0; 1]%nat 3 10 0xFFEFF47D 15; L false [1; 2; 3; 0]%nat 3 1 0x85845DD1 21;
   L false [0; 1; 2; 3]%nat 3 8 0x6FA87E4F 6; L false [3; 0; 1; 2]%nat 3 15 0xFE2CE6E0 10;
   L false [2; 3; 0; 1]%nat 3 6 0xA3014314 15; L false [1; 2; 3; 0]%nat 3 13 0x4E0811A1 21;
   L false [0; 1; 2; 3]%nat 3 4 0xF7537E82 6; L false [3; 0; 1; 2]%nat 3 11 0xBD3AF235 10;
   L false [2; 3; 0; 1]%nat 3 2 0x2AD7D2BB 15; L false [1; 2; 3; 0]%nat 3 9 0xEB86D391 21].

(* src/kryptos_ripemd128_160.c:248-382 the calls of kryptos_ripemd128_line_proc, in program order *)
Definition rmd128_lines : list line :=
  [L false [0; 1; 2; 3]%nat 0 0 0 11; L false [3; 0; 1; 2]%nat 0 1 0 14;
   L false [2; 3; 0; 1]%nat 0 2 0 15; L false [1; 2; 3; 0]%nat 0 3 0 12;
   L false [0; 1; 2; 3]%nat 0 4 0 5; L false [3; 0; 1; 2]%nat 0 5 0 8;
   L false [2; 3; 0; 1]%nat 0 6 0 7; L false [1; 2; 3; 0]%nat 0 7 0 9;
   L false [0; 1; 2; 3]%nat 0 8 0 11; L false [3; 0; 1; 2]%nat 0 9 0 13;
   L false [2; 3; 0; 1]%nat 0 10 0 14; L false [1; 2; 3; 0]%nat 0 11 0 15;
   L false [0; 1; 2; 3]%nat 0 12 0 6; L false [3; 0; 1; 2]%nat 0 13 0 7;
   L false [2; 3; 0; 1]%nat 0 14 0 9; L false [1; 2; 3; 0]%nat 0 15 0 8;
   L true [0; 1; 2; 3]%nat 3 5 0x50A28BE6 8; L true [3; 0; 1; 2]%nat 3 14 0x50A28BE6 9;
   L true [2; 3; 0; 1]%nat 3 7 0x50A28BE6 9; L true [1; 2; 3; 0]%nat 3 0 0x50A28BE6 11;
   L true [0; 1; 2; 3]%nat 3 9 0x50A28BE6 13; L true [3; 0; 1; 2]%nat 3 2 0x50A28BE6 15;
   L true [2; 3; 0; 1]%nat 3 11 0x50A28BE6 15; L true [1; 2; 3; 0]%nat 3 4 0x50A28BE6 5;
   L true [0; 1; 2; 3]%nat 3 13 0x50A28BE6 7; L true [3; 0; 1; 2]%nat 3 6 0x50A28BE6 7;
   L true [2; 3; 0; 1]%nat 3 15 0x50A28BE6 8; L true [1; 2; 3; 0]%nat 3 8 0x50A28BE6 11;
   L true [0; 1; 2; 3]%nat 3 1 0x50A28BE6 14; L true [3; 0; 1; 2]%nat 3 10 0x50A28BE6 14;
   L true [2; 3; 0; 1]%nat 3 3 0x50A28BE6 12; L true [1; 2; 3; 0]%nat 3 12 0x50A28BE6 6;
   L false [0; 1; 2; 3]%nat 1 7 0x5A827999 7; L false [3; 0; 1; 2]%nat 1 4 0x5A827999 6;
   L false [2; 3; 0; 1]%nat 1 13 0x5A827999 8; L false [1; 2; 3; 0]%nat 1 1 0x5A827999 13;
   L false [0; 1; 2; 3]%nat 1 10 0x5A827999 11; L false [3; 0; 1; 2]%nat 1 6 0x5A827999 9;
   L false [2; 3; 0; 1]%nat 1 15 0x5A827999 7; L false [1; 2; 3; 0]%nat 1 3 0x5A827999 15;
   L false [0; 1; 2; 3]%nat 1 12 0x5A827999 7; L false [3; 0; 1; 2]%nat 1 0 0x5A827999 12;
   L false [2; 3; 0; 1]%nat 1 9 0x5A827999 15; L false [1; 2; 3; 0]%nat 1 5 0x5A827999 9;
   L false [0; 1; 2; 3]%nat 1 2 0x5A827999 11; L false [3; 0; 1; 2]%nat 1 14 0x5A827999 7;
   L false [2; 3; 0; 1]%nat 1 11 0x5A827999 13; L false [1; 2; 3; 0]%nat 1 8 0x5A827999 12;
   L true [0; 1; 2; 3]%nat 2 6 0x5C4DD124 9; L true [3; 0; 1; 2]%nat 2 11 0x5C4DD124 13;
   L true [2; 3; 0; 1]%nat 2 3 0x5C4DD124 15; L true [1; 2; 3; 0]%nat 2 7 0x5C4DD124 7;
   L true [0; 1; 2; 3]%nat 2 0 0x5C4DD124 12; L true [3; 0; 1; 2]%nat 2 13 0x5C4DD124 8;
   L true [2; 3; 0; 1]%nat 2 5 0x5C4DD124 9; L true [1; 2; 3; 0]%nat 2 10 0x5C4DD124 11;
   L true [0; 1; 2; 3]%nat 2 14 0x5C4DD124 7; L true [3; 0; 1; 2]%nat 2 15 0x5C4DD124 7;
   L true [2; 3; 0; 1]%nat 2 8 0x5C4DD124 12; L true [1; 2; 3; 0]%nat 2 12 0x5C4DD124 7;
   L true [0; 1; 2; 3]%nat 2 4 0x5C4DD124 6; L true [3; 0; 1; 2]%nat 2 9 0x5C4DD124 15;
   L true [2; 3; 0; 1]%nat 2 1 0x5C4DD124 13; L true [1; 2; 3; 0]%nat 2 2 0x5C4DD124 11;
   L false [0; 1; 2; 3]%nat 2 3 0x6ED9EBA1 11; L false [3; 0; 1; 2]%nat 2 10 0x6ED9EBA1 13;
   L false [2; 3; 0; 1]%nat 2 14 0x6ED9EBA1 6; L false [1; 2; 3; 0]%nat 2 4 0x6ED9EBA1 7;
   L false [0; 1; 2; 3]%nat 2 9 0x6ED9EBA1 14; L false [3; 0; 1; 2]%nat 2 15 0x6ED9EBA1 9;
   L false [2; 3; 0; 1]%nat 2 8 0x6ED9EBA1 13; L false [1; 2; 3; 0]%nat 2 1 0x6ED9EBA1 15;
   L false [0; 1; 2; 3]%nat 2 2 0x6ED9EBA1 14; L false [3; 0; 1; 2]%nat 2 7 0x6ED9EBA1 8;
   L false [2; 3; 0; 1]%nat 2 0 0x6ED9EBA1 13; L false [1; 2; 3; 0]%nat 2 6 0x6ED9EBA1 6;
   L false [0; 1; 2; 3]%nat 2 13 0x6ED9EBA1 5; L false [3; 0; 1; 2]%nat 2 11 0x6ED9EBA1 12;
   L false [2; 3; 0; 1]%nat 2 5 0x6ED9EBA1 7; L false [1; 2; 3; 0]%nat 2 12 0x6ED9EBA1 5;
   L true [0; 1; 2; 3]%nat 1 15 0x6D703Ef3 9; L true [3; 0; 1; 2]%nat 1 5 0x6D703Ef3 7;
   L true [2; 3; 0; 1]%nat 1 1 0x6D703Ef3 15; L true [1; 2; 3; 0]%nat 1 3 0x6D703Ef3 11;
   L true [0; 1; 2; 3]%nat 1 7 0x6D703Ef3 8; L true [3; 0; 1; 2]%nat 1 14 0x6D703Ef3 6;
   L true [2; 3; 0; 1]%nat 1 6 0x6D703Ef3 6; L true [1; 2; 3; 0]%nat 1 9 0x6D703Ef3 14;
   L true [0; 1; 2; 3]%nat 1 11 0x6D703Ef3 12; L true [3; 0; 1; 2]%nat 1 8 0x6D703Ef3 13;
   L true [2; 3; 0; 1]%nat 1 12 0x6D703Ef3 5; L true [1; 2; 3; 0]%nat 1 2 0x6D703Ef3 14;
   L true [0; 1; 2; 3]%nat 1 10 0x6D703Ef3 13; L true [3; 0; 1; 2]%nat 1 0 0x6D703Ef3 13;
   L true [2; 3; 0; 1]%nat 1 4 0x6D703Ef3 7; L true [1; 2; 3; 0]%nat 1 13 0x6D703Ef3 5;
   L false [0; 1; 2; 3]%nat 3 1 0x8F1BBCDC 11; L false [3; 0; 1; 2]%nat 3 9 0x8F1BBCDC 12;
   L false [2; 3; 0; 1]%nat 3 11 0x8F1BBCDC 14; L false [1; 2; 3; 0]%nat 3 10 0x8F1BBCDC 15;
   L false [0; 1; 2; 3]%nat 3 0 0x8F1BBCDC 14; L false [3; 0; 1; 2]%nat 3 8 0x8F1BBCDC 15;
   L false [2; 3; 0; 1]%nat 3 12 0x8F1BBCDC 9; L false [1; 2; 3; 0]%nat 3 4 0x8F1BBCDC 8;
   L false [0; 1; 2; 3]%nat 3 13 0x8F1BBCDC 9; L false [3; 0; 1; 2]%nat 3 3 0x8F1BBCDC 14;
   L false [2; 3; 0; 1]%nat 3 7 0x8F1BBCDC 5; L false [1; 2; 3; 0]%nat 3 15 0x8F1BBCDC 6;
   L false [0; 1; 2; 3]%nat 3 14 0x8F1BBCDC 8; L false [3; 0; 1; 2]%nat 3 5 0x8F1BBCDC 6;
   L false [2; 3; 0; 1]%nat 3 6 0x8F1BBCDC 5; L false [1; 2; 3; 0]%nat 3 2 0x8F1BBCDC 12;
   L true [0; 1; 2; 3]%nat 0 8 0 15; L true [3; 0; 1; 2]%nat 0 6 0 5;
   L true [2; 3; 0; 1]%nat 0 4 0 8; L true [1; 2; 3; 0]%nat 0 1 0 11;
   L true [0; 1; 2; 3]%nat 0 3 0 14; L true [3; 0; 1; 2]%nat 0 11 0 14;
   L true [2; 3; 0; 1]%nat 0 15 0 6; L true [1; 2; 3; 0]%nat 0 0 0 14;
   L true [0; 1; 2; 3]%nat 0 5 0 6; L true [3; 0; 1; 2]%nat 0 12 0 9;
   L true [2; 3; 0; 1]%nat 0 2 0 12; L true [1; 2; 3; 0]%nat 0 13 0 9;
   L true [0; 1; 2; 3]%nat 0 9 0 12; L true [3; 0; 1; 2]%nat 0 7 0 5;
   L true [2; 3; 0; 1]%nat 0 10 0 15; L true [1; 2; 3; 0]%nat 0 14 0 8].

(* src/kryptos_ripemd128_160.c:437-605 the calls of kryptos_ripemd160_line_proc, in program order *)
Definition rmd160_lines : list line :=
  [L false [0; 1; 2; 3; 4]%nat 0 0 0 11; L false [4; 0; 1; 2; 3]%nat 0 1 0 14;
   L false [3; 4; 0; 1; 2]%nat 0 2 0 15; L false [2; 3; 4; 0; 1]%nat 0 3 0 12;
   L false [1; 2; 3; 4; 0]%nat 0 4 0 5; L false [0; 1; 2; 3; 4]%nat 0 5 0 8;
   L false [4; 0; 1; 2; 3]%nat 0 6 0 7; L false [3; 4; 0; 1; 2]%nat 0 7 0 9;
   L false [2; 3; 4; 0; 1]%nat 0 8 0 11; L false [1; 2; 3; 4; 0]%nat 0 9 0 13;
   L false [0; 1; 2; 3; 4]%nat 0 10 0 14; L false [4; 0; 1; 2; 3]%nat 0 11 0 15;
   L false [3; 4; 0; 1; 2]%nat 0 12 0 6; L false [2; 3; 4; 0; 1]%nat 0 13 0 7;
   L false [1; 2; 3; 4; 0]%nat 0 14 0 9; L false [0; 1; 2; 3; 4]%nat 0 15 0 8;
   L true [0; 1; 2; 3; 4]%nat 4 5 0x50A28BE6 8; L true [4; 0; 1; 2; 3]%nat 4 14 0x50A28BE6 9;
   L true [3; 4; 0; 1; 2]%nat 4 7 0x50A28BE6 9; L true [2; 3; 4; 0; 1]%nat 4 0 0x50A28BE6 11;
   L true [1; 2; 3; 4; 0]%nat 4 9 0x50A28BE6 13; L true [0; 1; 2; 3; 4]%nat 4 2 0x50A28BE6 15;
   L true [4; 0; 1; 2; 3]%nat 4 11 0x50A28BE6 15; L true [3; 4; 0; 1; 2]%nat 4 4 0x50A28BE6 5;
   L true [2; 3; 4; 0; 1]%nat 4 13 0x50A28BE6 7; L true [1; 2; 3; 4; 0]%nat 4 6 0x50A28BE6 7;
   L true [0; 1; 2; 3; 4]%nat 4 15 0x50A28BE6 8; L true [4; 0; 1; 2; 3]%nat 4 8 0x50A28BE6 11;
   L true [3; 4; 0; 1; 2]%nat 4 1 0x50A28BE6 14; L true [2; 3; 4; 0; 1]%nat 4 10 0x50A28BE6 14;
   L true [1; 2; 3; 4; 0]%nat 4 3 0x50A28BE6 12; L true [0; 1; 2; 3; 4]%nat 4 12 0x50A28BE6 6;
   L false [4; 0; 1; 2; 3]%nat 1 7 0x5A827999 7; L false [3; 4; 0; 1; 2]%nat 1 4 0x5A827999 6;
   L false [2; 3; 4; 0; 1]%nat 1 13 0x5A827999 8; L false [1; 2; 3; 4; 0]%nat 1 1 0x5A827999 13;
   L false [0; 1; 2; 3; 4]%nat 1 10 0x5A827999 11; L false [4; 0; 1; 2; 3]%nat 1 6 0x5A827999 9;
   L false [3; 4; 0; 1; 2]%nat 1 15 0x5A827999 7; L false [2; 3; 4; 0; 1]%nat 1 3 0x5A827999 15;
   L false [1; 2; 3; 4; 0]%nat 1 12 0x5A827999 7; L false [0; 1; 2; 3; 4]%nat 1 0 0x5A827999 12;
   L false [4; 0; 1; 2; 3]%nat 1 9 0x5A827999 15; L false [3; 4; 0; 1; 2]%nat 1 5 0x5A827999 9;
   L false [2; 3; 4; 0; 1]%nat 1 2 0x5A827999 11; L false [1; 2; 3; 4; 0]%nat 1 14 0x5A827999 7;
   L false [0; 1; 2; 3; 4]%nat 1 11 0x5A827999 13; L false [4; 0; 1; 2; 3]%nat 1 8 0x5A827999 12;
   L true [4; 0; 1; 2; 3]%nat 3 6 0x5C4DD124 9; L true [3; 4; 0; 1; 2]%nat 3 11 0x5C4DD124 13;
   L true [2; 3; 4; 0; 1]%nat 3 3 0x5C4DD124 15; L true [1; 2; 3; 4; 0]%nat 3 7 0x5C4DD124 7;
   L true [0; 1; 2; 3; 4]%nat 3 0 0x5C4DD124 12; L true [4; 0; 1; 2; 3]%nat 3 13 0x5C4DD124 8;
   L true [3; 4; 0; 1; 2]%nat 3 5 0x5C4DD124 9; L true [2; 3; 4; 0; 1]%nat 3 10 0x5C4DD124 11;
   L true [1; 2; 3; 4; 0]%nat 3 14 0x5C4DD124 7; L true [0; 1; 2; 3; 4]%nat 3 15 0x5C4DD124 7;
   L true [4; 0; 1; 2; 3]%nat 3 8 0x5C4DD124 12; L true [3; 4; 0; 1; 2]%nat 3 12 0x5C4DD124 7;
   L true [2; 3; 4; 0; 1]%nat 3 4 0x5C4DD124 6; L true [1; 2; 3; 4; 0]%nat 3 9 0x5C4DD124 15;
   L true [0; 1; 2; 3; 4]%nat 3 1 0x5C4DD124 13; L true [4; 0; 1; 2; 3]%nat 3 2 0x5C4DD124 11;
   L false [3; 4; 0; 1; 2]%nat 2 3 0x6ED9EBA1 11; L false [2; 3; 4; 0; 1]%nat 2 10 0x6ED9EBA1 13;
   L false [1; 2; 3; 4; 0]%nat 2 14 0x6ED9EBA1 6; L false [0; 1; 2; 3; 4]%nat 2 4 0x6ED9EBA1 7;
   L false [4; 0; 1; 2; 3]%nat 2 9 0x6ED9EBA1 14; L false [3; 4; 0; 1; 2]%nat 2 15 0x6ED9EBA1 9;
   L false [2; 3; 4; 0; 1]%nat 2 8 0x6ED9EBA1 13; L false [1; 2; 3; 4; 0]%nat 2 1 0x6ED9EBA1 15;
   L false [0; 1; 2; 3; 4]%nat 2 2 0x6ED9EBA1 14; L false [4; 0; 1; 2; 3]%nat 2 7 0x6ED9EBA1 8;
   L false [3; 4; 0; 1; 2]%nat 2 0 0x6ED9EBA1 13; L false [2; 3; 4; 0; 1]%nat 2 6 0x6ED9EBA1 6;
   L false [1; 2; 3; 4; 0]%nat 2 13 0x6ED9EBA1 5; L false [0; 1; 2; 3; 4]%nat 2 11 0x6ED9EBA1 12;
   L false [4; 0; 1; 2; 3]%nat 2 5 0x6ED9EBA1 7; L false [3; 4; 0; 1; 2]%nat 2 12 0x6ED9EBA1 5;
   L true [3; 4; 0; 1; 2]%nat 2 15 0x6D703Ef3 9; L true [2; 3; 4; 0; 1]%nat 2 5 0x6D703Ef3 7;
   L true [1; 2; 3; 4; 0]%nat 2 1 0x6D703Ef3 15; L true [0; 1; 2; 3; 4]%nat 2 3 0x6D703Ef3 11;
   L true [4; 0; 1; 2; 3]%nat 2 7 0x6D703Ef3 8; L true [3; 4; 0; 1; 2]%nat 2 14 0x6D703Ef3 6;
   L true [2; 3; 4; 0; 1]%nat 2 6 0x6D703Ef3 6; L true [1; 2; 3; 4; 0]%nat 2 9 0x6D703Ef3 14;
   L true [0; 1; 2; 3; 4]%nat 2 11 0x6D703Ef3 12; L true [4; 0; 1; 2; 3]%nat 2 8 0x6D703Ef3 13;
   L true [3; 4; 0; 1; 2]%nat 2 12 0x6D703Ef3 5; L true [2; 3; 4; 0; 1]%nat 2 2 0x6D703Ef3 14;
   L true [1; 2; 3; 4; 0]%nat 2 10 0x6D703Ef3 13; L true [0; 1; 2; 3; 4]%nat 2 0 0x6D703Ef3 13;
   L true [4; 0; 1; 2; 3]%nat 2 4 0x6D703Ef3 7; L true [3; 4; 0; 1; 2]%nat 2 13 0x6D703Ef3 5;
   L false [2; 3; 4; 0; 1]%nat 3 1 0x8F1BBCDC 11; L false [1; 2; 3; 4; 0]%nat 3 9 0x8F1BBCDC 12;
   L false [0; 1; 2; 3; 4]%nat 3 11 0x8F1BBCDC 14; L false [4; 0; 1; 2; 3]%nat 3 10 0x8F1BBCDC 15;
   L false [3; 4; 0; 1; 2]%nat 3 0 0x8F1BBCDC 14; L false [2; 3; 4; 0; 1]%nat 3 8 0x8F1BBCDC 15;
   L false [1; 2; 3; 4; 0]%nat 3 12 0x8F1BBCDC 9; L false [0; 1; 2; 3; 4]%nat 3 4 0x8F1BBCDC 8;
   L false [4; 0; 1; 2; 3]%nat 3 13 0x8F1BBCDC 9; L false [3; 4; 0; 1; 2]%nat 3 3 0x8F1BBCDC 14;
   L false [2; 3; 4; 0; 1]%nat 3 7 0x8F1BBCDC 5; L false [1; 2; 3; 4; 0]%nat 3 15 0x8F1BBCDC 6;
   L false [0; 1; 2; 3; 4]%nat 3 14 0x8F1BBCDC 8; L false [4; 0; 1; 2; 3]%nat 3 5 0x8F1BBCDC 6;
   L false [3; 4; 0; 1; 2]%nat 3 6 0x8F1BBCDC 5; L false [2; 3; 4; 0; 1]%nat 3 2 0x8F1BBCDC 12;
   L true [2; 3; 4; 0; 1]%nat 1 8 0x7A6D76E9 15; L true [1; 2; 3; 4; 0]%nat 1 6 0x7A6D76E9 5;
   L true [0; 1; 2; 3; 4]%nat 1 4 0x7A6D76E9 8; L true [4; 0; 1; 2; 3]%nat 1 1 0x7A6D76E9 11;
   L true [3; 4; 0; 1; 2]%nat 1 3 0x7A6D76E9 14; L true [2; 3; 4; 0; 1]%nat 1 11 0x7A6D76E9 14;
   L true [1; 2; 3; 4; 0]%nat 1 15 0x7A6D76E9 6; L true [0; 1; 2; 3; 4]%nat 1 0 0x7A6D76E9 14;
   L true [4; 0; 1; 2; 3]%nat 1 5 0x7A6D76E9 6; L true [3; 4; 0; 1; 2]%nat 1 12 0x7A6D76E9 9;
   L true [2; 3; 4; 0; 1]%nat 1 2 0x7A6D76E9 12; L true [1; 2; 3; 4; 0]%nat 1 13 0x7A6D76E9 9;
   L true [0; 1; 2; 3; 4]%nat 1 9 0x7A6D76E9 12; L true [4; 0; 1; 2; 3]%nat 1 7 0x7A6D76E9 5;
   L true [3; 4; 0; 1; 2]%nat 1 10 0x7A6D76E9 15; L true [2; 3; 4; 0; 1]%nat 1 14 0x7A6D76E9 8;
   L false [1; 2; 3; 4; 0]%nat 4 4 0xA953FD4E 9; L false [0; 1; 2; 3; 4]%nat 4 0 0xA953FD4E 15;
   L false [4; 0; 1; 2; 3]%nat 4 5 0xA953FD4E 5; L false [3; 4; 0; 1; 2]%nat 4 9 0xA953FD4E 11;
   L false [2; 3; 4; 0; 1]%nat 4 7 0xA953FD4E 6; L false [1; 2; 3; 4; 0]%nat 4 12 0xA953FD4E 8;
   L false [0; 1; 2; 3; 4]%nat 4 2 0xA953FD4E 13; L false [4; 0; 1; 2; 3]%nat 4 10 0xA953FD4E 12;
   L false [3; 4; 0; 1; 2]%nat 4 14 0xA953FD4E 5; L false [2; 3; 4; 0; 1]%nat 4 1 0xA953FD4E 12;
   L false [1; 2; 3; 4; 0]%nat 4 3 0xA953FD4E 13; L false [0; 1; 2; 3; 4]%nat 4 8 0xA953FD4E 14;
   L false [4; 0; 1; 2; 3]%nat 4 11 0xA953FD4E 11; L false [3; 4; 0; 1; 2]%nat 4 6 0xA953FD4E 8;
   L false [2; 3; 4; 0; 1]%nat 4 15 0xA953FD4E 5; L false [1; 2; 3; 4; 0]%nat 4 13 0xA953FD4E 6;
   L true [1; 2; 3; 4; 0]%nat 0 12 0 8; L true [0; 1; 2; 3; 4]%nat 0 15 0 5;
   L true [4; 0; 1; 2; 3]%nat 0 10 0 12; L true [3; 4; 0; 1; 2]%nat 0 4 0 9;
   L true [2; 3; 4; 0; 1]%nat 0 1 0 12; L true [1; 2; 3; 4; 0]%nat 0 5 0 5;
   L true [0; 1; 2; 3; 4]%nat 0 8 0 14; L true [4; 0; 1; 2; 3]%nat 0 7 0 6;
   L true [3; 4; 0; 1; 2]%nat 0 6 0 8; L true [2; 3; 4; 0; 1]%nat 0 2 0 13;
   L true [1; 2; 3; 4; 0]%nat 0 13 0 6; L true [0; 1; 2; 3; 4]%nat 0 14 0 5;
   L true [4; 0; 1; 2; 3]%nat 0 0 0 15; L true [3; 4; 0; 1; 2]%nat 0 3 0 13;
   L true [2; 3; 4; 0; 1]%nat 0 9 0 11; L true [1; 2; 3; 4; 0]%nat 0 11 0 11].

(* src/kryptos_md4.c:132-138 kryptos_md4_init, src/kryptos_md5.c:118-124 kryptos_md5_init *)
Definition md4_init : list N := [0x67452301; 0xEFCDAB89; 0x98BADCFE; 0x10325476].
(* src/kryptos_md4.c:157-241 *)
Definition md4_comp (st blk : list N) : list N := add_state 32 st (fold_left (md4_step md4_f blk) md4_lines st).
(* src/kryptos_md5.c:141-238 *)
Definition md5_comp (st blk : list N) : list N := add_state 32 st (fold_left (md5_step blk) md5_lines st).
Definition md4 : hash_params := mkHash 4 16 0x80 56 swap_len (map rev_u32) md4_init md4_comp (map rev_u32).
Definition md5 : hash_params := mkHash 4 16 0x80 56 swap_len (map rev_u32) md4_init md5_comp (map rev_u32).

(* src/kryptos_ripemd128_160.c:196-207 kryptos_ripemd_init *)
Definition rmd160_init : list N := [0x67452301; 0xEFCDAB89; 0x98BADCFE; 0x10325476; 0xC3D2E1F0].
(* src/kryptos_ripemd128_160.c:223-388 *)
Definition rmd128_comp (st blk : list N) : list N :=
  let '(v, u) := fold_left (on_side (md4_step rmd_f blk)) rmd128_lines (st, st) in
  let s i := nth i st 0 in let l i := nth i v 0 in let r i := nth i u 0 in
  [add32 (add32 (s 1%nat) (r 3%nat)) (l 2%nat);
   add32 (add32 (s 2%nat) (r 0%nat)) (l 3%nat);
   add32 (add32 (s 3%nat) (r 1%nat)) (l 0%nat);
   add32 (add32 (s 0%nat) (r 2%nat)) (l 1%nat)].
(* src/kryptos_ripemd128_160.c:413-612 *)
Definition rmd160_comp (st blk : list N) : list N :=
  let '(v, u) := fold_left (on_side (rmd160_step blk)) rmd160_lines (st, st) in
  let s i := nth i st 0 in let l i := nth i v 0 in let r i := nth i u 0 in
  [add32 (add32 (s 1%nat) (r 3%nat)) (l 2%nat);
   add32 (add32 (s 2%nat) (r 4%nat)) (l 3%nat);
   add32 (add32 (s 3%nat) (r 0%nat)) (l 4%nat);
   add32 (add32 (s 4%nat) (r 1%nat)) (l 0%nat);
   add32 (add32 (s 0%nat) (r 2%nat)) (l 1%nat)].
Definition ripemd128 : hash_params := mkHash 4 16 0x80 56 swap_len (map rev_u32) md4_init rmd128_comp (map rev_u32).
Definition ripemd160 : hash_params := mkHash 4 16 0x80 56 swap_len (map rev_u32) rmd160_init rmd160_comp (map rev_u32).

(* ------------------------------------------------------------------ SHA-1, SHA-2 *)
Definition same (l : list N) : list N := l.
(* W[0 .. 15] = block, then W[t] = next W t for t = 16 .. n - 1 *)
Definition schedule (next : list N -> nat -> N) (n : nat) (blk : list N) : list N :=
  fold_left (fun W t => upd W t (next W t)) (seq 16 (n - 16)) (firstn 16 blk ++ repeat 0 (n - 16)).

(* src/kryptos_sha1.c:171-173 *)
Definition sha1_next (W : list N) (t : nat) : N :=
  rotl32 (xor (xor (xor (nth (t - 3) W 0) (nth (t - 8) W 0)) (nth (t - 14) W 0)) (nth (t - 16) W 0)) 1.
(* src/kryptos_sha1.c:19-27 kryptos_sha1_F *)
Definition sha1_F (t : nat) (B C D : N) : N :=
  if Nat.leb t 19 then or (and B C) (and (not32 B) D)
  else if (Nat.leb 20 t && Nat.leb t 39 || Nat.leb 60 t && Nat.leb t 79)%bool then xor (xor B C) D
  else or (or (and B C) (and B D)) (and C D).
(* src/kryptos_sha1.c:29-39 kryptos_sha1_K *)
Definition sha1_K (t : nat) : N :=
  if Nat.leb t 19 then 0x5A827999
  else if Nat.leb t 39 then 0x6ED9EBA1
  else if Nat.leb t 59 then 0x8F1BBCDC
  else 0xCA62C1D6.
(* src/kryptos_sha1.c:181-190 *)
Definition sha1_round (W : list N) (v : list N) (t : nat) : list N :=
  let A := nth 0 v 0 in let B := nth 1 v 0 in let C := nth 2 v 0 in let D := nth 3 v 0 in let E := nth 4 v 0 in
  let TEMP := add32 (add32 (add32 (add32 (rotl32 A 5) (sha1_F t B C D)) E) (nth t W 0)) (sha1_K t) in
  [TEMP; A; rotl32 B 30; C; D].
(* src/kryptos_sha1.c:154-196 *)
Definition sha1_comp (st blk : list N) : list N :=
  add_state 32 st (fold_left (sha1_round (schedule sha1_next 80 blk)) (seq 0 80) st).
(* src/kryptos_sha1.c:133-140 kryptos_sha1_init *)
Definition sha1 : hash_params := mkHash 4 16 0x80 56 same same rmd160_init sha1_comp same.

(* src/kryptos_sha224_256.c:17-38 and src/kryptos_sha384_512.c:17-38, parameterised by the word size and the amounts of
   rotation and shift: BSIG0, BSIG1, SSIG0, SSIG1 *)
Record sha2_params := mkSha2 { s2_w : N; s2_n : nat; s2_S0 : N * N * N; s2_S1 : N * N * N; s2_s0 : N * N * N; s2_s1 : N * N * N; s2_K : list N }.
Definition bsig (w : N) (p : N * N * N) (x : N) : N :=
  let '(a, b, c) := p in xor (xor (rotr w x a) (rotr w x b)) (rotr w x c).
Definition ssig (w : N) (p : N * N * N) (x : N) : N :=
  let '(a, b, c) := p in xor (xor (rotr w x a) (rotr w x b)) (shr x c).
Definition sha2_CH (w : N) (x y z : N) : N := xor (and x y) (and (notw w x) z).
Definition sha2_MAJ (x y z : N) : N := xor (xor (and x y) (and x z)) (and y z).
(* src/kryptos_sha224_256.c:279-282, src/kryptos_sha384_512.c:274-277 *)
Definition sha2_next (p : sha2_params) (W : list N) (t : nat) : N :=
  let a := addw (s2_w p) in
  a (a (a (ssig (s2_w p) (s2_s1 p) (nth (t - 2) W 0)) (nth (t - 7) W 0)) (ssig (s2_w p) (s2_s0 p) (nth (t - 15) W 0))) (nth (t - 16) W 0).
(* src/kryptos_sha224_256.c:293-304, src/kryptos_sha384_512.c:288-299 *)
Definition sha2_round (p : sha2_params) (W : list N) (v : list N) (t : nat) : list N :=
  let add := addw (s2_w p) in
  let a := nth 0 v 0 in let b := nth 1 v 0 in let c := nth 2 v 0 in let d := nth 3 v 0 in
  let e := nth 4 v 0 in let f := nth 5 v 0 in let g := nth 6 v 0 in let h := nth 7 v 0 in
  let T1 := add (add (add (add h (bsig (s2_w p) (s2_S1 p) e)) (sha2_CH (s2_w p) e f g)) (nth t (s2_K p) 0)) (nth t W 0) in
  let T2 := add (bsig (s2_w p) (s2_S0 p) a) (sha2_MAJ a b c) in
  [add T1 T2; a; b; c; add d T1; e; f; g].
(* src/kryptos_sha224_256.c:262-313, src/kryptos_sha384_512.c:257-308 *)
Definition sha2_comp (p : sha2_params) (st blk : list N) : list N :=
  add_state (s2_w p) st (fold_left (sha2_round p (schedule (sha2_next p) (s2_n p) blk)) (seq 0 (s2_n p)) st).

(* src/kryptos_sha224_256.c:47-64 kryptos_sha224_256_K *)
Definition sha256_K : list N :=
  [0x428A2F98; 0x71374491; 0xB5C0FBCF; 0xE9B5DBA5; 0x3956C25b; 0x59F111F1; 0x923F82A4; 0xAB1C5ED5;
   0xD807AA98; 0x12835B01; 0x243185BE; 0x550C7DC3; 0x72BE5D74; 0x80DEB1FE; 0x9BDC06A7; 0xC19BF174;
   0xE49B69C1; 0xEFBE4786; 0x0FC19DC6; 0x240CA1CC; 0x2DE92C6F; 0x4A7484AA; 0x5CB0A9DC; 0x76F988DA;
   0x983E5152; 0xA831C66D; 0xB00327C8; 0xBF597FC7; 0xC6E00BF3; 0xD5A79147; 0x06CA6351; 0x14292967;
   0x27B70A85; 0x2E1B2138; 0x4D2C6DFC; 0x53380D13; 0x650A7354; 0x766A0ABB; 0x81C2C92E; 0x92722C85;
   0xA2BFE8A1; 0xA81A664B; 0xC24B8B70; 0xC76C51A3; 0xD192E819; 0xD6990624; 0xF40E3585; 0x106AA070;
   0x19A4C116; 0x1E376C08; 0x2748774C; 0x34B0BCB5; 0x391C0CB3; 0x4ED8AA4A; 0x5B9CCA4F; 0x682E6FF3;
   0x748F82EE; 0x78A5636F; 0x84C87814; 0x8CC70208; 0x90BEFFFA; 0xA4506CEB; 0xBEF9A3F7; 0xC67178F2].
(* src/kryptos_sha384_512.c:47-68 kryptos_sha384_512_K *)
Definition sha512_K : list N :=
  [0x428A2F98D728AE22; 0x7137449123EF65CD; 0xB5C0FBCFEC4D3B2F; 0xE9B5DBA58189DBBC;
   0x3956C25BF348B538; 0x59F111F1B605D019; 0x923F82A4AF194F9B; 0xAB1C5ED5DA6D8118;
   0xD807AA98A3030242; 0x12835B0145706FBE; 0x243185BE4EE4B28C; 0x550C7DC3D5FFB4E2;
   0x72BE5D74F27B896F; 0x80DEB1FE3B1696B1; 0x9BDC06A725C71235; 0xC19BF174CF692694;
   0xE49B69C19EF14AD2; 0xEFBE4786384F25E3; 0x0FC19DC68B8CD5B5; 0x240CA1CC77AC9C65;
   0x2DE92C6F592B0275; 0x4A7484AA6EA6E483; 0x5CB0A9DCBD41FBD4; 0x76F988DA831153B5;
   0x983E5152EE66DFAB; 0xA831C66D2DB43210; 0xB00327C898FB213F; 0xBF597FC7BEEF0EE4;
   0xC6E00BF33DA88FC2; 0xD5A79147930AA725; 0x06CA6351E003826F; 0x142929670A0E6E70;
   0x27B70A8546D22FFC; 0x2E1B21385C26C926; 0x4D2C6DFC5AC42AED; 0x53380D139D95B3DF;
   0x650A73548BAF63DE; 0x766A0ABB3C77B2A8; 0x81C2C92E47EDAEE6; 0x92722C851482353B;
   0xA2BFE8A14CF10364; 0xA81A664BBC423001; 0xC24B8B70D0F89791; 0xC76C51A30654BE30;
   0xD192E819D6EF5218; 0xD69906245565A910; 0xF40E35855771202A; 0x106AA07032BBD1B8;
   0x19A4C116B8D2D0C8; 0x1E376C085141AB53; 0x2748774CDF8EEB99; 0x34B0BCB5E19B48A8;
   0x391C0CB3C5C95A63; 0x4ED8AA4AE3418ACB; 0x5B9CCA4F7763E373; 0x682E6FF3D6B2B8A3;
   0x748F82EE5DEFB2FC; 0x78A5636F43172F60; 0x84C87814A1F0AB72; 0x8CC702081A6439EC;
   0x90BEFFFA23631E28; 0xA4506CEBDE82BDE9; 0xBEF9A3F7B2C67915; 0xC67178F2E372532B;
   0xCA273ECEEA26619C; 0xD186B8C721C0C207; 0xEADA7DD6CDE0EB1E; 0xF57D4F7FEE6ED178;
   0x06F067AA72176FBA; 0x0A637DC5A2C898A6; 0x113F9804BEF90DAE; 0x1B710B35131C471B;
   0x28DB77F523047D84; 0x32CAAB7B40C72493; 0x3C9EBE0A15C9BEBC; 0x431D67C49C100D4C;
   0x4CC5D4BECB3E42B6; 0x597F299CFC657E2A; 0x5FCB6FAB3AD6FAEC; 0x6C44198C4A475817].
(* src/kryptos_sha224_256.c:226-236 kryptos_sha224_init *)
Definition sha224_init : list N :=
  [0xC1059ED8; 0x367CD507; 0x3070DD17; 0xF70E5939; 0xFFC00B31; 0x68581511; 0x64F98FA7; 0xBEFA4FA4].
(* src/kryptos_sha224_256.c:238-248 kryptos_sha256_init *)
Definition sha256_init : list N :=
  [0x6A09E667; 0xBB67AE85; 0x3C6EF372; 0xA54FF53A; 0x510E527F; 0x9B05688C; 0x1F83D9AB; 0x5BE0CD19].
(* src/kryptos_sha384_512.c:221-231 kryptos_sha384_init *)
Definition sha384_init : list N :=
  [0xCBBB9D5DC1059ED8; 0x629A292A367CD507; 0x9159015A3070DD17; 0x152FECD8F70E5939; 0x67332667FFC00B31; 0x8EB44A8768581511; 0xDB0C2E0D64F98FA7; 0x47B5481DBEFA4FA4].
(* src/kryptos_sha384_512.c:233-243 kryptos_sha512_init *)
Definition sha512_init : list N :=
  [0x6A09E667F3BCC908; 0xBB67AE8584CAA73B; 0x3C6EF372FE94F82B; 0xA54FF53A5F1D36F1; 0x510E527FADE682D1; 0x9B05688C2B3E6C1F; 0x1F83D9ABFB41BD6B; 0x5BE0CD19137E2179].
(* src/kryptos_sha224_256.c:17-38 *)
Definition p256 : sha2_params := mkSha2 32 64 (2, 13, 22) (6, 11, 25) (7, 18, 3) (17, 19, 10) sha256_K.
(* src/kryptos_sha384_512.c:17-38 *)
Definition p512 : sha2_params := mkSha2 64 80 (28, 34, 39) (14, 18, 41) (1, 8, 7) (19, 61, 6) sha512_K.
(* src/kryptos_sha224_256.c:123-224, src/kryptos_sha384_512.c:40-46, 122-219 *)
Definition sha224 : hash_params := mkHash 4 16 0x80 56 same same sha224_init (sha2_comp p256) (firstn 7).
Definition sha256 : hash_params := mkHash 4 16 0x80 56 same same sha256_init (sha2_comp p256) same.
Definition sha384 : hash_params := mkHash 8 16 0x80 120 same same sha384_init (sha2_comp p512) (firstn 6).
Definition sha512 : hash_params := mkHash 8 16 0x80 120 same same sha512_init (sha2_comp p512) same.

(* ------------------------------------------------------------------ incremental hashing *)
(* the input buffer of the task: no buffer, an allocated one with its contents (in_size bytes), or a pointer to memory that
   realloc has released *)
Inductive in_buffer := InNull | InLive (l : list N) | InFreed.
(* What C leaves to the implementation: does malloc(0) return NULL; does realloc(p, 0) release p and return NULL (glibc: no
   and yes) *)
Record c_library := mkLib { malloc0_null : bool; realloc0_frees : bool }.
(* the task between two calls: buffer, result, out and out_size as last written *)
Record hash_task := mkHT { ht_in : in_buffer; ht_result : result; ht_out : option (list N); ht_out_size : N }.
(* src/kryptos.h:673-676 kryptos_hash_init *)
Definition hash_init : hash_task := mkHT InNull Success None 0.
(* src/kryptos_hash_common.c:91-127 kryptos_hash_do_update with src/kryptos_memory.c:60-121 kryptos_newseg and 179-229
   kryptos_realloc, whose allocations of more than zero bytes are taken to succeed. input = None is the null pointer; arg[0] is
   the hash function, set by hash_init. realloc on a released pointer is undefined. *)
Definition hash_update (lib : c_library) (input : option (list N)) (t : hash_task) : outcome hash_task :=
  match input with
  | None => Done (mkHT (ht_in t) InvalidParams (ht_out t) (ht_out_size t))
  | Some chunk =>
      match ht_in t with
      | InNull =>
          if (Nat.eqb (length chunk) 0 && malloc0_null lib)%bool
          then Done (mkHT InNull ProcessError (ht_out t) (ht_out_size t))
          else Done (mkHT (InLive chunk) Success (ht_out t) (ht_out_size t))
      | InLive l =>
          if (Nat.eqb (length l + length chunk) 0 && realloc0_frees lib)%bool
          then Done (mkHT InFreed ProcessError (ht_out t) (ht_out_size t))
          else Done (mkHT (InLive (l ++ chunk)) Success (ht_out t) (ht_out_size t))
      | InFreed => UB
      end
  end.
(* src/kryptos_hash_common.c:129-156 kryptos_hash_do_finalize with the function kryptos_..._hash (src/kryptos_types.h:811-820)
   that calls the processor on the task. A released buffer has in_size 0, so the processor reads nothing of it; it is
   released a second time after it, which is undefined. *)
Definition hash_finalize (h : hash_params) (to_hex : bool) (t : hash_task) : outcome hash_task :=
  let run l := obind (hash_processor h to_hex (Some l) (N.of_nat (length l))) (fun r =>
    Done (mkHT InNull (hr_result r) (hr_out r) (hr_out_size r))) in
  match ht_in t with
  | InNull => run []
  | InLive l => run l
  | InFreed => UB
  end.
(* a history of calls on one task *)
Inductive hash_call := Update (input : option (list N)) | Finalize (to_hex : bool).
Definition hash_step (lib : c_library) (h : hash_params) (t : hash_task) (c : hash_call) : outcome hash_task :=
  match c with
  | Update i => hash_update lib i t
  | Finalize x => hash_finalize h x t
  end.
Fixpoint hash_session (lib : c_library) (h : hash_params) (t : hash_task) (cs : list hash_call) : outcome hash_task :=
  match cs with
  | [] => Done t
  | c :: cs => obind (hash_step lib h t c) (fun t => hash_session lib h t cs)
  end.
