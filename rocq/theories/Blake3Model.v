(* BLAKE3. Source: src/kryptos_blake3.c, src/kryptos_types.h:822-849. Allocation failures are not modelled; sizes are below 2^60, so that
   the size_t arithmetic does not wrap. *)
From Verif Require Import Words TaskModel CipherBase StreamModel HashModel UtilModel.
Open Scope N_scope.

(* src/kryptos_blake3.c:61-64 kryptos_blake3_IV *)
Definition blake3_IV : list N := [0x6A09E667; 0xBB67AE85; 0x3C6EF372; 0xA54FF53A; 0x510E527F; 0x9B05688C; 0x1F83D9AB; 0x5BE0CD19].
(* src/kryptos_blake3.c:66-71 kryptos_blake3_mode_t *)
Inductive blake3_mode := ModeHash | ModeKeyedHash | ModeDeriveKey1stStage | ModeDeriveKey2ndStage.
(* src/kryptos_blake3.c:222-228 *)
Definition CHUNK_START := 1. Definition CHUNK_END := 2. Definition PARENT := 4. Definition ROOT := 8.
Definition KEYED_HASH := 16. Definition DERIVE_KEY_CONTEXT := 32. Definition DERIVE_KEY_MATERIAL := 64.

(* src/kryptos_blake3.c:119 kryptos_blake3_RSH *)
Definition blake3_RSH (v l : N) : N := or (shlw 32 v (32 - l)) (shr v l).
(* src/kryptos_blake3.c:121-130 kryptos_blake3_G on v[a], v[b], v[c], v[d], with x = m[0], y = m[1] *)
Definition blake3_G (a b c d : nat) (x y : N) (v : list N) : list N :=
  let g v i := nth i v 0 in
  let v := upd v a (addw 32 (addw 32 (g v a) (g v b)) x) in
  let v := upd v d (blake3_RSH (xor (g v d) (g v a)) 16) in
  let v := upd v c (addw 32 (g v c) (g v d)) in
  let v := upd v b (blake3_RSH (xor (g v b) (g v c)) 12) in
  let v := upd v a (addw 32 (addw 32 (g v a) (g v b)) y) in
  let v := upd v d (blake3_RSH (xor (g v d) (g v a)) 8) in
  let v := upd v c (addw 32 (g v c) (g v d)) in
  upd v b (blake3_RSH (xor (g v b) (g v c)) 7).
(* src/kryptos_blake3.c:132-141 kryptos_blake3_ROUND *)
Definition blake3_ROUND (v m : list N) : list N :=
  let M i := nth i m 0 in
  let v := blake3_G 0 4  8 12 (M  0%nat) (M  1%nat) v in
  let v := blake3_G 1 5  9 13 (M  2%nat) (M  3%nat) v in
  let v := blake3_G 2 6 10 14 (M  4%nat) (M  5%nat) v in
  let v := blake3_G 3 7 11 15 (M  6%nat) (M  7%nat) v in
  let v := blake3_G 0 5 10 15 (M  8%nat) (M  9%nat) v in
  let v := blake3_G 1 6 11 12 (M 10%nat) (M 11%nat) v in
  let v := blake3_G 2 7  8 13 (M 12%nat) (M 13%nat) v in
  blake3_G 3 4 9 14 (M 14%nat) (M 15%nat) v.
(* src/kryptos_blake3.c:143-162 kryptos_blake3_PERM *)
Definition blake3_PERM (m : list N) : list N := map (fun i => nth i m 0) [2; 6; 3; 10; 7; 0; 4; 13; 1; 11; 12; 5; 9; 14; 15; 8]%nat.
(* src/kryptos_blake3.c:164-202 kryptos_blake3_COMPRESS: the new h and v. m, which it permutes, is never read again before it is set. *)
Definition blake3_COMPRESS (h v m : list N) : list N * list N :=
  let v := blake3_ROUND v m in let m := blake3_PERM m in
  let v := blake3_ROUND v m in let m := blake3_PERM m in
  let v := blake3_ROUND v m in let m := blake3_PERM m in
  let v := blake3_ROUND v m in let m := blake3_PERM m in
  let v := blake3_ROUND v m in let m := blake3_PERM m in
  let v := blake3_ROUND v m in let m := blake3_PERM m in
  let v := blake3_ROUND v m in
  let v := fold_left (fun v i => upd v i (xor (nth i v 0) (nth (i + 8) v 0))) (seq 0 8) v in
  let v := fold_left (fun v i => upd v (i + 8) (xor (nth (i + 8) v 0) (nth i h 0))) (seq 0 8) v in
  (firstn 8 v, v).

(* struct kryptos_blake3_ctx, src/kryptos_blake3.c:90-115, without the constant fields and the buffers m and b; s_save: the registers
   kept by kryptos_blake3_save_ctx_regs (208-212); s_stack: pc_stack, top first; s_right: pc_state is kBLAKE3PCGetR *)
Record b3 := mkB3 {
  s_h : list N; s_v : list N; s_t : N; s_d : N; s_save : list N * list N * list N; s_stack : list (list N); s_right : bool;
  s_chunk_nr : N; s_block_nr : nat; s_out : option (list N)
}.

(* src/kryptos_blake3.c:934-1038 kryptos_blake3_get_sum: out, of out_size bytes. UB: a write outside it, or the fuel is used up *)
Definition v_bytes (l : list N) : list N := concat (map (fun x => [and x 0xFF; and (shr x 8) 0xFF; and (shr x 16) 0xFF; shr x 24]) l).
Fixpoint sum_loop (fuel : nat) (wanted out_size : N) (save : list N * list N * list N) (v : list N) (t : N) (out : list N) : outcome (list N) :=
  match fuel with
  | O => UB
  | S fuel =>
      let len l := N.of_nat (length (l : list N)) in
      if out_size <? len out + 32 then UB
      else
        let out := out ++ v_bytes (firstn 8 v) in
        if (len out <? wanted) && (len out <? out_size) then
          if out_size <? len out + 32 then UB
          else
            let out := out ++ v_bytes (firstn 8 (skipn 8 v)) in
            if (wanted <? len out) || (out_size <=? len out) then Done out
            else
              let '(hh, vv, mm) := save in
              let v := upd (upd vv 12 (and t 0xFFFFFFFF)) 13 (shr t 32 mod 2 ^ 32) in
              let '(_, v) := blake3_COMPRESS hh v mm in
              sum_loop fuel wanted out_size save v (addw 64 t 1) out
        else Done out
  end.
(* src/kryptos_blake3.c:529-532, 755-758: out_size, the size asked for rounded up to a multiple of 32 *)
Definition sum_size (wanted : N) : N := wanted + (32 - wanted mod 32) mod 32.
Definition get_sum (wanted : N) (s : b3) : outcome (list N) :=
  sum_loop (S (N.to_nat (sum_size wanted / 32))) wanted (sum_size wanted) (s_save s) (s_v s) 1 [].

(* src/kryptos_blake3.c:555, 570, 585, 600, and the same choice at 703-709 and 877-883 *)
Definition mode_flag (mode : blake3_mode) : N :=
  match mode with ModeHash => 0 | ModeKeyedHash => KEYED_HASH | ModeDeriveKey1stStage => DERIVE_KEY_CONTEXT | ModeDeriveKey2ndStage => DERIVE_KEY_MATERIAL end.
(* src/kryptos_blake3.c:842-896 kryptos_blake3_pc_compress with 898-932 push and pop. Simplified: the failure of a pop, from a stack of
   less than two values, is UB here. *)
Definition pc_compress (mode : blake3_mode) (k : list N) (is_input_end : bool) (s : b3) : outcome b3 :=
  match s_stack s with
  | top :: next :: rest =>
      let m := next ++ top in
      let d := or (or PARENT (if is_input_end && (match rest with [] => true | _ => false end) then ROOT else 0)) (mode_flag mode) in
      let v := k ++ firstn 4 blake3_IV ++ [0; 0; 64; d] in
      let save := if and d ROOT =? 0 then s_save s else (k, v, m) in
      let '(h, v) := blake3_COMPRESS k v m in
      Done (mkB3 h v (s_t s) (s_d s) save (h :: rest) (s_right s) (s_chunk_nr s) (s_block_nr s) (s_out s))
  | _ => UB
  end.
Definition two_or_more (l : list (list N)) : bool := match l with _ :: _ :: _ => true | _ => false end.
(* src/kryptos_blake3.c:831-837 the loop; UB: the fuel, which is the height of the stack, is used up *)
Fixpoint pc_loop (fuel : nat) (mode : blake3_mode) (k : list N) (is_input_end : bool) (temp : N) (s : b3) : outcome b3 :=
  if (and temp 1 =? 0) && two_or_more (s_stack s) then
    match fuel with
    | O => UB
    | S fuel => obind (pc_compress mode k is_input_end s) (pc_loop fuel mode k is_input_end (shr temp 1))
    end
  else Done s.
(* src/kryptos_blake3.c:818-840 kryptos_blake3_pc_do_compress *)
Definition pc_do_compress (mode : blake3_mode) (k : list N) (is_input_end : bool) (s : b3) : outcome b3 :=
  obind (pc_compress mode k is_input_end s) (fun s' => pc_loop (length (s_stack s)) mode k is_input_end (shr (s_chunk_nr s) 1) s').
(* src/kryptos_blake3.c:784-816 kryptos_blake3_flush_pc_stack *)
Definition flush_pc_stack (mode : blake3_mode) (k : list N) (is_input_end : bool) (s : b3) : outcome b3 :=
  let set r s := mkB3 (s_h s) (s_v s) (s_t s) (s_d s) (s_save s) (s_stack s) r (s_chunk_nr s) (s_block_nr s) (s_out s) in
  let s := mkB3 (s_h s) (s_v s) (s_t s) (s_d s) (s_save s) (s_h s :: s_stack s) (s_right s) (s_chunk_nr s + 1) (s_block_nr s) (s_out s) in
  if s_right s then obind (pc_do_compress mode k is_input_end s) (fun s => Done (set false s)) else Done (set true s).
(* src/kryptos_blake3.c:747-753 the loop; UB: the fuel, which is the height of the stack, is used up *)
Fixpoint collapse (fuel : nat) (mode : blake3_mode) (k : list N) (s : b3) : outcome b3 :=
  if two_or_more (s_stack s) then
    match fuel with
    | O => UB
    | S fuel => obind (pc_do_compress mode k true s) (collapse fuel mode k)
    end
  else Done s.
(* src/kryptos_blake3.c:737-782 kryptos_blake3_do_parents *)
Definition do_parents (mode : blake3_mode) (k : list N) (wanted : N) (is_input_end : bool) (s : b3) : outcome b3 :=
  obind (flush_pc_stack mode k is_input_end s) (fun s =>
  if is_input_end then
    obind (match mode with
           | ModeDeriveKey1stStage => Done s
           | _ => obind (collapse (length (s_stack s)) mode k s) (fun s => obind (get_sum wanted s) (fun out =>
                  Done (mkB3 (s_h s) (s_v s) 1 (s_d s) (s_save s) (s_stack s) (s_right s) (s_chunk_nr s) (s_block_nr s) (Some out))))
           end) (fun s => Done (mkB3 (s_h s) (s_v s) (s_t s) (s_d s) (s_save s) [] (s_right s) (s_chunk_nr s) (s_block_nr s) (s_out s)))
  else Done s).

(* src/kryptos_blake3.c:634-650 the turns of the loop up to the one that completes a block; in the others done is 0 at 731. From word mi,
   n more fit. The result: m, b, the input left, and whether the last word was incomplete (648-649). UB: a word shifted left by 32 bits
   (646), when no input is left. *)
Fixpoint gather (n : nat) (m : list N) (mi : nat) (b : N) (l : list N) : outcome (list N * N * list N * bool) :=
  match n with
  | O => Done (m, b, l, false)
  | S n =>
      if Nat.leb 4 (length l) then
        let m := upd m mi (get_u32_le l) in
        match skipn 4 l with
        | [] => Done (m, b + 4, [], false)
        | l => gather n m (mi + 1) (b + 4) l
        end
      else
        let delta_off := length l in
        let x := fold_left (fun x c => or (shlw 32 x 8) c) l (nth mi m 0) in
        if Nat.eqb delta_off 0 then UB
        else Done (upd m mi (u32_rev (shlw 32 x (8 * N.of_nat (4 - delta_off)))), b + N.of_nat delta_off, [], true)
  end.
(* src/kryptos_blake3.c:652-730: a complete block m, of b bytes, with the input l left. single: op != NULL; the counter t that
   kryptos_blake3_get_sum leaves is not read again *)
Definition block_step (mode : blake3_mode) (k : list N) (in_size wanted : N) (single : bool) (s : b3) (m : list N) (b : N) (l : list N) (partial : bool) : outcome b3 :=
  let block_nr := S (if partial then 15%nat else s_block_nr s) in
  let ends := match l with [] => true | _ => false end in
  let last := Nat.eqb block_nr 16 || ends in
  let d := if last then or (s_d s) CHUNK_END else s_d s in
  let d := if ends && (in_size <=? 1024) then or d ROOT else d in
  let v := firstn 8 (s_v s) ++ firstn 4 blake3_IV ++ [and (s_t s) 0xFFFFFFFF; shr (s_t s) 32 mod 2 ^ 32; b; d] in
  let root := negb (and d ROOT =? 0) in
  let save := if root then (s_h s, v, m) else s_save s in
  let '(h, v) := blake3_COMPRESS (s_h s) v m in
  let s := mkB3 h v (s_t s) d save (s_stack s) (s_right s) (s_chunk_nr s) block_nr (s_out s) in
  obind (if single && root then obind (get_sum wanted s) (fun out =>
           Done (mkB3 (s_h s) (s_v s) (s_t s) (s_d s) (s_save s) (s_stack s) (s_right s) (s_chunk_nr s) (s_block_nr s) (Some out))) else Done s) (fun s =>
  obind (if last then
           obind (if single then Done s else do_parents mode k wanted ends s) (fun s =>
           let d := or CHUNK_START (mode_flag mode) in
           let '(h, v) := if ends then (s_h s, s_v s) else (k, k ++ skipn 8 (s_v s)) in
           Done (mkB3 h v (addw 64 (s_t s) 1) d (s_save s) (s_stack s) (s_right s) (s_chunk_nr s) 0 (s_out s)))
         else Done s) (fun s =>
  let d := if Nat.ltb 0 (s_block_nr s) then and (s_d s) (notw 32 CHUNK_START) else s_d s in
  Done (mkB3 (s_h s) (s_v s) (s_t s) d (s_save s) (s_stack s) (s_right s) (s_chunk_nr s) (s_block_nr s) (s_out s)))).
(* src/kryptos_blake3.c:633-732 the loop, block by block; UB: the fuel is used up. done (731): all input is read, or, when single, the
   hash is complete, which happens at the last block. *)
Fixpoint chunks_loop (fuel : nat) (mode : blake3_mode) (k : list N) (in_size wanted : N) (single : bool) (s : b3) (l : list N) : outcome b3 :=
  match fuel with
  | O => UB
  | S fuel =>
      obind (gather 16 (repeat 0 16) 0 0 l) (fun '(m, b, l, partial) =>
      obind (block_step mode k in_size wanted single s m b l partial) (fun s =>
      if (if single then match s_out s with Some out => wanted <=? N.of_nat (length out) | None => false end
          else match l with [] => true | _ => false end)
      then Done s else chunks_loop fuel mode k in_size wanted single s l))
  end.
(* src/kryptos_blake3.c:543-611 the key words k *)
Definition key_words (mode : blake3_mode) (key h : list N) : list N :=
  match mode with
  | ModeHash | ModeDeriveKey1stStage => blake3_IV
  | ModeKeyedHash => map (fun i => get_u32_le (firstn 4 (skipn (4 * i) key))) (seq 0 8)
  | ModeDeriveKey2ndStage => firstn 8 h
  end.
(* src/kryptos_blake3.c:514-735 kryptos_blake3_do_chunks, 476-512 kryptos_do_blake3 for wanted_out_size != 0, with h as the previous
   run left it: out (None: NULL) and h *)
Definition do_blake3 (mode : blake3_mode) (wanted : N) (key h inp : list N) : outcome (option (list N) * list N) :=
  let in_size := N.of_nat (length inp) in
  let single := (in_size <=? 1024) && match mode with ModeDeriveKey1stStage => false | _ => true end in
  let k := key_words mode key h in
  let s := mkB3 k (k ++ repeat 0 8) 0 (or (mode_flag mode) CHUNK_START) ([], [], []) [] false 0 0 None in
  obind (chunks_loop (S (length inp)) mode k in_size wanted single s inp) (fun s =>
  Done (match s_out s with
        | Some out => Some (firstn (N.to_nat wanted) out ++ repeat 0 (length out - N.to_nat wanted))
        | None => None
        end, match mode with ModeDeriveKey1stStage => s_h s | _ => repeat 0 8 end)).

(* src/kryptos_blake3.c:284-285, 378-379 *)
Definition bad_key (key : option (list N)) (kn : N) : bool :=
  match key with None => negb (kn =? 0) | Some _ => negb (kn =? 32) end.
Definition key_mode (key : option (list N)) : blake3_mode := match key with None => ModeHash | Some _ => ModeKeyedHash end.
(* src/kryptos_blake3.c:334-365: 32 bit words of out, most significant byte first, in hexadecimal *)
Definition blake3_hex (z : list N) : list N :=
  concat (map (fun i => word_to_hex 4 (be_val (firstn 4 (skipn (4 * i) z)))) (seq 0 8)).
(* src/kryptos_types.h:822-849 with src/kryptos_blake3.c:282-370. When the result is not Success, out and out_size are not written. *)
Definition blake3_processor (to_hex : bool) (key : option (list N)) (kn : N) (inp : option (list N)) (n : N) : outcome hash_run :=
  match inp with
  | None => Done (mkHashRun InvalidParams None 0)
  | Some _ =>
      if bad_key key kn then Done (mkHashRun KeyError None 0)
      else obind (buf key kn) (fun k => obind (buf inp n) (fun m => obind (do_blake3 (key_mode key) 32 k (repeat 0 8) m) (fun r =>
      match fst r with
      | Some z => if Nat.eqb (length z) 32 then
                    let out := if to_hex then blake3_hex z else z in Done (mkHashRun Success (Some out) (N.of_nat (length out)))
                  else Done (mkHashRun ProcessError None 0)
      | None => Done (mkHashRun ProcessError None 0)
      end)))
  end.
(* src/kryptos_types.h:822-849 with src/kryptos_blake3.c:376-434. nn: out_size before the call, which failures leave as it is. *)
Definition blake3N_processor (to_hex : bool) (nn : N) (key : option (list N)) (kn : N) (inp : option (list N)) (n : N) : outcome hash_run :=
  match inp with
  | None => Done (mkHashRun InvalidParams None nn)
  | Some _ =>
      if bad_key key kn then Done (mkHashRun KeyError None nn)
      else if nn =? 0 then Done (mkHashRun ProcessError None nn)
      else obind (buf key kn) (fun k => obind (buf inp n) (fun m => obind (do_blake3 (key_mode key) nn k (repeat 0 8) m) (fun r =>
      match fst r with
      | Some z => if N.of_nat (length z) <? nn then Done (mkHashRun ProcessError None nn)
                  else if to_hex then
                    match u8_ptr_to_hex (firstn (N.to_nat nn) z) with
                    | Some out => Done (mkHashRun Success (Some out) (N.of_nat (length out)))
                    | None => Done (mkHashRun ProcessError None 0)
                    end
                  else Done (mkHashRun Success (Some (firstn (N.to_nat nn) z)) nn)
      | None => Done (mkHashRun ProcessError None nn)
      end)))
  end.
(* src/kryptos_blake3.c:438-474 kryptos_blake3, the key derivation; None: NULL. ctx, cn: ctx_string, ctx_string_size; key, kn; size:
   derived_size. The block returned has the size rounded up to 32 bytes. *)
Definition blake3_kdf (ctx : option (list N)) (cn : N) (key : option (list N)) (kn size : N) : outcome (option (list N)) :=
  match ctx, key with
  | Some _, Some _ =>
      if size =? 0 then Done None
      else obind (buf ctx cn) (fun c => obind (do_blake3 ModeDeriveKey1stStage size [] (repeat 0 8) c) (fun '(out, h) =>
      match out with
      | None => obind (buf key kn) (fun k => obind (do_blake3 ModeDeriveKey2ndStage size [] h k) (fun '(out, _) => Done out))
      | Some _ => Done None
      end))
  | _, _ => Done None
  end.
