(* Model of the Base16, Base32, Base64 and UU encoders/decoders of kryptos. *)
From Verif Require Import Words EncTables.
Open Scope N_scope.

(* ---------------------------------------------------------------- Base16 *)

(* src/kryptos_base16.c:39-83 kryptos_base16_encode_buffer.
   None stands for the returned NULL (empty input, lines 52-54).
   Memory allocation is assumed to succeed. *)
Definition base16_encode (l : list N) : option (list N) :=
  match l with
  | [] => None
  | _ => Some (flat_map (fun b => [nthN base16_state (N.shiftr b 4);
                                   nthN base16_state (N.land b 15)]) l)
  end.

(* src/kryptos_base16.c:115-117 macro kryptos_base16_state_1, reduced modulo 256
   (both uses are truncated to a byte when stored). *)
Definition base16_digit (b : N) : N :=
  if (48 <=? b) && (b <=? 57) then b - 48 else (b + 256 - 55) mod 256.

(* src/kryptos_base16.c:119-124: two characters per output byte, a trailing odd
   character is ignored because op reaches op_end first. *)
Fixpoint base16_decode_loop (l : list N) : list N :=
  match l with
  | a :: b :: r =>
      N.lor (N.shiftl (base16_digit a) 4) (base16_digit b) mod 256 :: base16_decode_loop r
  | _ => []
  end.

(* src/kryptos_base16.c:85-134 kryptos_base16_decode_buffer *)
Definition base16_decode (l : list N) : option (list N) :=
  match l with
  | [] => None
  | _ => Some (base16_decode_loop l)
  end.

(* ---------------------------------------------------------------- Base32 *)

(* src/kryptos_base32.c:127-134: the eight characters of one 40-bit block *)
Definition base32_block_chars (block : N) : list N :=
  [nthN base32_state (N.shiftr (N.land block 0x000000F800000000) 35);
   nthN base32_state (N.shiftr (N.land block 0x00000007C0000000) 30);
   nthN base32_state (N.shiftr (N.land block 0x000000003E000000) 25);
   nthN base32_state (N.shiftr (N.land block 0x0000000001F00000) 20);
   nthN base32_state (N.shiftr (N.land block 0x00000000000F8000) 15);
   nthN base32_state (N.shiftr (N.land block 0x0000000000007C00) 10);
   nthN base32_state (N.shiftr (N.land block 0x00000000000003E0) 5);
   nthN base32_state (N.land block 0x000000000000001F)].

(* src/kryptos_base32.c:117-121: block = (block << 8) | byte over the gathered bytes *)
Definition gather8 (bs : list N) : N :=
  fold_left (fun block b => N.lor (N.shiftl block 8) b) bs 0.

(* src/kryptos_base32.c:142-167: the last characters replaced by '=' (op -= k, then
   '=' up to op_end) *)
Definition put_pad (k : nat) (chars : list N) : list N :=
  firstn (length chars - k) chars ++ repeat 61 k.

(* src/kryptos_base32.c:116-167 main loop of kryptos_base32_encode_buffer: blocks of five
   bytes, the last one shifted left by 8*pad_size and padded (cases 4,3,2,1 of the switch).
   The C code pads after the loop; only the last block can be short so the characters
   written are the same. *)
Fixpoint base32_encode_loop (l : list N) : list N :=
  match l with
  | [] => []
  | [a] => put_pad 6 (base32_block_chars (N.shiftl (gather8 [a]) 32))
  | [a; b] => put_pad 4 (base32_block_chars (N.shiftl (gather8 [a; b]) 24))
  | [a; b; c] => put_pad 3 (base32_block_chars (N.shiftl (gather8 [a; b; c]) 16))
  | [a; b; c; d] => put_pad 1 (base32_block_chars (N.shiftl (gather8 [a; b; c; d]) 8))
  | a :: b :: c :: d :: e :: r =>
      base32_block_chars (gather8 [a; b; c; d; e]) ++ base32_encode_loop r
  end.

(* src/kryptos_base32.c:73-177 kryptos_base32_encode_buffer *)
Definition base32_encode (l : list N) : option (list N) :=
  match l with
  | [] => None
  | _ => Some (base32_encode_loop l)
  end.

(* src/kryptos_base32.c:52 macro kryptos_base32_get_encoded_byte *)
Definition eq_to_nul (b : N) : N := if b =? 61 then 0 else b.

(* src/kryptos_base32.c:217-224: inner loop gathering up to n characters of five bits;
   pad counts '=' one character ahead (never the first character of the buffer, possibly the
   first one of the next block). block is a u64. A character 255 indexes the 255-entry
   table out of bounds: UB. Returns block, pad count, remaining characters. *)
Fixpoint base32_gather (n : nat) (block : N) (pad : N) (l : list N)
  : outcome (N * N * list N) :=
  match n, l with
  | O, _ => Done (block, pad, l)
  | _, [] => Done (block, pad, [])
  | S n', c :: r =>
      obind (rd base32_state_1 (eq_to_nul c)) (fun v =>
        base32_gather n' (N.lor ((N.shiftl block 5) mod W64) v)
          (match r with
           | d :: _ => if d =? 61 then pad + 1 else pad
           | [] => pad
           end) r)
  end.

(* src/kryptos_base32.c:226-266: bytes written for one block, by pad count *)
Definition base32_emit (block pad : N) : list N :=
  let all := [N.land (N.shiftr block 32) 0xFF; N.land (N.shiftr block 24) 0xFF;
              N.land (N.shiftr block 16) 0xFF; N.land (N.shiftr block 8) 0xFF;
              N.land block 0xFF] in
  match pad with
  | 0 => all
  | 6 => firstn 1 all
  | 4 => firstn 2 all
  | 3 => firstn 3 all
  | 1 => firstn 4 all
  | _ => []
  end.

(* src/kryptos_base32.c:216-268: outer loop. written is what has been stored from output[0]
   on; the loop also stops when op == op_end, i.e. when exactly alloc bytes were written.
   block and pad survive from one iteration to the next, as in the C code. *)
Fixpoint base32_decode_loop (fuel : nat) (alloc : N) (written : list N)
         (block pad : N) (l : list N) : outcome (list N) :=
  match fuel with
  | O => Done written
  | S f =>
      match l with
      | [] => Done written
      | _ =>
          if N.of_nat (length written) =? alloc then Done written
          else
            obind (base32_gather 8 block pad l) (fun '(block', pad', r) =>
              base32_decode_loop f alloc (written ++ base32_emit block' pad') block' pad' r)
      end
  end.

(* src/kryptos_base32.c:180-280 kryptos_base32_decode_buffer: the number of bytes allocated
   (line 201, size_t arithmetic) and the bytes stored from the start of the output, whose
   number is the returned out_size (line 270). Stores beyond alloc are heap overflows: see
   [base32_in_bounds]. None: empty input. The loop consumes at least one character per
   iteration, so the length of the input is enough fuel. *)
Definition base32_decode (l : list N) : option (outcome (N * list N)) :=
  match l with
  | [] => None
  | _ =>
      let alloc := N.shiftr ((((N.of_nat (length l) + W64 - 4) mod W64) * 5) mod W64) 3 + 2 in
      Some (obind (base32_decode_loop (length l) alloc [] 0 0 l)
                  (fun w => Done (alloc, w)))
  end.

(* ---------------------------------------------------------------- Base64 *)

(* src/kryptos_base64.c:119-122 *)
Definition base64_block_chars (block : N) : list N :=
  [nthN base64_state (N.shiftr (N.land block 0x00FC0000) 18);
   nthN base64_state (N.shiftr (N.land block 0x0003F000) 12);
   nthN base64_state (N.shiftr (N.land block 0x00000FC0) 6);
   nthN base64_state (N.land block 0x0000003F)].

(* src/kryptos_base64.c:104-131: out_p advances by 4 - pad_size and the pad characters
   overwrite the rest of the group. *)
Fixpoint base64_encode_loop (l : list N) : list N :=
  match l with
  | [] => []
  | [a] => put_pad 2 (base64_block_chars (N.shiftl (gather8 [a]) 16))
  | [a; b] => put_pad 1 (base64_block_chars (N.shiftl (gather8 [a; b]) 8))
  | a :: b :: c :: r => base64_block_chars (gather8 [a; b; c]) ++ base64_encode_loop r
  end.

(* src/kryptos_base64.c:72-140 kryptos_base64_encode_buffer *)
Definition base64_encode (l : list N) : option (list N) :=
  match l with
  | [] => None
  | _ => Some (base64_encode_loop l)
  end.

(* src/kryptos_base64.c:91-95: size of the allocated output: (8n)/6 rounded up to a multiple
   of 4 (size_t overflow for n >= 2^61 not modelled) *)
Definition base64_encode_alloc (n : N) : N := 4 * ((8 * n / 6 + 3) / 4).

(* src/kryptos_base64.c:158-164: number of trailing '='; walking before the start of the
   buffer is UB. [rl] is the reversed buffer. *)
Fixpoint base64_count_pad (rl : list N) : outcome N :=
  match rl with
  | [] => UB
  | c :: r => if c =? 61 then obind (base64_count_pad r) (fun n => Done (n + 1)) else Done 0
  end.

(* src/kryptos_base64.c:178-202: left = out_end - out_p. Reading past the end of the buffer or
   of the table is UB. *)
Fixpoint base64_decode_loop (left : N) (l : list N) : outcome (list N) :=
  if left =? 0 then Done []
  else
    match l with
    | [] => Done []
    | c0 :: c1 :: c2 :: c3 :: r =>
        obind (rd base64_state_1 (eq_to_nul c0)) (fun v0 =>
        obind (rd base64_state_1 (eq_to_nul c1)) (fun v1 =>
        obind (rd base64_state_1 (eq_to_nul c2)) (fun v2 =>
        obind (rd base64_state_1 (eq_to_nul c3)) (fun v3 =>
          let block := N.lor (N.lor (N.lor (N.shiftl v0 18) (N.shiftl v1 12)) (N.shiftl v2 6)) v3 in
          let b0 := N.land (N.shiftr (N.land block 0x00FF0000) 16) 0xFF in
          let b1 := N.land (N.shiftr (N.land block 0x0000FF00) 8) 0xFF in
          let b2 := N.land block 0x000000FF in
          if left =? 1 then Done [b0]
          else if left =? 2 then Done [b0; b1]
          else obind (base64_decode_loop (left - 3) r) (fun w => Done (b0 :: b1 :: b2 :: w))))))
    | _ => UB
    end.

(* src/kryptos_base64.c:142-213 kryptos_base64_decode_buffer: out_size (line 168, size_t
   arithmetic) and the bytes stored; out is zero filled beyond them. *)
Definition base64_decode (l : list N) : option (outcome (N * list N)) :=
  match l with
  | [] => None
  | _ =>
      Some (obind (base64_count_pad (rev l)) (fun pad =>
        let out_size := (((N.of_nat (length l) * 6) / 8) + W64 - pad) mod W64 in
        obind (base64_decode_loop out_size l) (fun w => Done (out_size, w))))
  end.

(* -------------------------------------------------------------- UUEncode *)

(* src/kryptos_uuencode.c:87-90 *)
Definition uu_block_chars (block : N) : list N :=
  [32 + N.land (N.shiftr (N.land block 0x00FC0000) 18) 0xFF;
   32 + N.land (N.shiftr (N.land block 0x0003F000) 12) 0xFF;
   32 + N.land (N.shiftr (N.land block 0x00000FC0) 6) 0xFF;
   32 + N.land block 0x0000003F].

(* src/kryptos_uuencode.c:94-107: flush of the current line, taken when it holds 60 characters
   or the input is exhausted; a full line is followed by '\n' *)
Definition uu_flush (enc_total : N) (cur : list N) : list N :=
  (32 + enc_total) :: cur ++ (if Nat.eqb (length cur) 60 then [10] else []).

(* src/kryptos_uuencode.c:68-108: cur = curr_line[0 .. cp), enc_total the bytes in it *)
Fixpoint uu_encode_loop (cur : list N) (enc_total : N) (l : list N) : list N :=
  match l with
  | [] => []
  | [a] =>
      uu_flush (enc_total + 1)
        (cur ++ uu_block_chars (N.lor (N.shiftl (gather8 [a]) 16) 0x101))
  | [a; b] =>
      uu_flush (enc_total + 2)
        (cur ++ uu_block_chars (N.lor (N.shiftl (gather8 [a; b]) 8) 0x01))
  | a :: b :: c :: r =>
      let cur' := cur ++ uu_block_chars (gather8 [a; b; c]) in
      let tot' := enc_total + 3 in
      match r with
      | [] => uu_flush tot' cur'
      | _ => if Nat.eqb (length cur') 60
             then uu_flush tot' cur' ++ uu_encode_loop [] 0 r
             else uu_encode_loop cur' tot' r
      end
  end.

(* src/kryptos_uuencode.c:33-131 kryptos_uuencode_encode_buffer. The scan of lines 112-114
   stops at once: out_p points into the zero-filled part of the buffer. *)
Definition uu_encode (l : list N) : option (list N) :=
  match l with
  | [] => None
  | _ => Some (uu_encode_loop [] 0 l ++ [10; 96; 10])
  end.

(* c - 32 converted to an unsigned type of modulus m *)
Definition sub32 (m c : N) : N := (c + m - 32) mod m.

(* src/kryptos_uuencode.c:188-193: up to three bytes of one group, while enc_total > 0 *)
Definition uu_emit (block enc_total : N) : list N :=
  firstn (N.to_nat (N.min enc_total 3))
    [N.shiftr (N.land block 0xFF0000) 16 mod 256;
     N.shiftr (N.land block 0xFF00) 8 mod 256;
     N.shiftr (N.land block 0xFF) 0 mod 256].

(* src/kryptos_uuencode.c:180-196: groups of one line. l is the buffer from bp to the real end
   of the buffer, k = (end of buffer) - bp_end; reading outside the buffer is UB. *)
Fixpoint uu_decode_groups (fuel k : nat) (enc_total : N) (l : list N)
  : outcome (list N * list N) :=
  match fuel with
  | O => Done ([], l)
  | S f =>
      if (0 <? enc_total) && Nat.ltb k (length l) then
        match l with
        | a :: b :: c :: d :: r =>
            let block := N.lor (N.lor (N.lor (N.shiftl (sub32 W32 a) 18 mod W32)
                                             (N.shiftl (sub32 W32 b) 12 mod W32))
                                      (N.shiftl (sub32 W32 c) 6 mod W32))
                               (sub32 W32 d) in
            obind (uu_decode_groups f k (enc_total - N.min enc_total 3) r)
                  (fun '(w, r') => Done (uu_emit block enc_total ++ w, r'))
        | _ => UB
        end
      else Done ([], l)
  end.

(* src/kryptos_uuencode.c:198-208: line endings *)
Definition uu_skip_eol (k : nat) (l : list N) : outcome (list N) :=
  match l with
  | [] => UB
  | c :: _ =>
      let l1 := if c =? 10 then skipn 1 l else if c =? 13 then skipn 2 l else l in
      (* (bp + 2) < bp_end: more than two characters before bp_end *)
      if Nat.ltb (k + 2) (length l1) then
        match l1 with
        | x :: y :: _ => if (x =? 13) || (y =? 10) then Done (skipn 2 l1) else Done l1
        | _ => UB
        end
      else Done l1
  end.

(* src/kryptos_uuencode.c:176-209 *)
Fixpoint uu_decode_loop (fuel k : nat) (l : list N) : outcome (list N) :=
  match fuel with
  | O => Done []
  | S f =>
      if Nat.ltb k (length l) then
        match l with
        | [] => UB
        | c :: r =>
            obind (uu_decode_groups (length r) k (sub32 W64 c) r) (fun '(w, r1) =>
            obind (uu_skip_eol k r1) (fun r2 =>
            obind (uu_decode_loop f k r2) (fun w' => Done (w ++ w'))))
        end
      else Done []
  end.

(* src/kryptos_uuencode.c:154-161: how many trailing characters are cut off, from the reversed
   buffer *)
Definition uu_tail (l : list N) : nat :=
  match rev l with
  | 10 :: 96 :: 10 :: _ :: _ => 3%nat
  | 10 :: 13 :: 96 :: _ :: _ => 3%nat
  | 10 :: 13 :: 10 :: 96 :: _ :: _ => 3%nat
  | _ => 0%nat
  end.

(* src/kryptos_uuencode.c:133-220 kryptos_uuencode_decode_buffer: allocated size (lines 149,
   163-168) and bytes stored. *)
Definition uu_decode (l : list N) : option (outcome (N * list N)) :=
  match l with
  | [] => None
  | c :: _ =>
      let sz := (N.of_nat (length l) * 6 / 8 + W64 - 4) mod W64 in
      let sz' := if sz <? sub32 W64 c then sub32 W64 c else sz in
      Some (obind (uu_decode_loop (length l) (uu_tail l) l)
                  (fun w => Done ((sz' + 60) mod W64, w)))
  end.
