(* The stream ciphers: src/kryptos_arc4.c, src/kryptos_chacha20.c, src/kryptos_salsa20.c,
   src/kryptos_salsa20_core.c, src/kryptos_rabbit.c, src/kryptos_seal.c. *)
From Verif Require Import Words TaskModel CipherBase.
Open Scope N_scope.

(* What a run leaves behind. s_iv: the iv field of the task afterwards - as it was, NULL, or pointing to a
   buffer that was freed. *)
Inductive iv_after := IvKept | IvNull | IvFreed.
Record stream_run := mkRun { s_result : result; s_out : option (list N); s_out_size : N; s_iv : iv_after; s_counter : N }.

(* the first n bytes of a buffer; UB when the buffer is shorter, or missing (NULL) and
   n is not 0 *)
Definition buf (b : option (list N)) (n : N) : outcome (list N) :=
  match b with
  | Some l => if N.of_nat (length l) <? n then UB else Done (firstn (N.to_nat n) l)
  | None => if n =? 0 then Done [] else UB
  end.

(* ------------------------------------------------------------------ ARC4 *)
(* src/kryptos_arc4.c:23-26 struct kryptos_arc4_subkey *)
Record arc4_state := { a4_i : N; a4_j : N; a4_S : list N }.
(* S[i] and S[j] exchanged: lines 17-19, 45-47 *)
Definition swap (box : list N) (i j : N) : list N :=
  let t := nth (N.to_nat i) box 0 in
  upd (upd box (N.to_nat i) (nth (N.to_nat j) box 0)) (N.to_nat j) t.
(* src/kryptos_arc4.c:34-54 kryptos_arc4_key_setup, body of the second loop; S2[i] = userkey[i % userkey_size] *)
Definition arc4_mix (key : list N) (s : N * list N) (i : N) : N * list N :=
  let '(j, box) := s in
  let j := (j + nth (N.to_nat i) box 0 + nth (N.to_nat (i mod N.of_nat (length key))) key 0) mod 256 in
  (j, swap box i j).
(* src/kryptos_arc4.c:34-54 kryptos_arc4_key_setup *)
Definition arc4_key_setup (key : list N) : arc4_state :=
  {| a4_i := 0; a4_j := 0; a4_S := snd (fold_left (arc4_mix key) (range 256) (0, range 256)) |}.
(* src/kryptos_arc4.c:15-21 kryptos_arc4stream *)
Definition arc4_next (s : arc4_state) : N * arc4_state :=
  let i := (a4_i s + 1) mod 256 in
  let j := (a4_j s + nth (N.to_nat i) (a4_S s) 0) mod 256 in
  let box := swap (a4_S s) i j in
  (nth (N.to_nat ((nth (N.to_nat i) box 0 + nth (N.to_nat j) box 0) mod 256)) box 0,
   {| a4_i := i; a4_j := j; a4_S := box |}).
(* src/kryptos_arc4.c:56-67, 103-107 the loop over the input *)
Fixpoint arc4_loop (s : arc4_state) (inp : list N) : list N :=
  match inp with
  | [] => []
  | b :: r => let '(k, s') := arc4_next s in N.lxor b k :: arc4_loop s' r
  end.
(* src/kryptos_arc4.c:75-116 kryptos_arc4_cipher *)
Definition arc4_cipher (pem : pk_param -> list N -> bool) (t : task) : outcome stream_run :=
  match task_check pem t with
  | Success =>
      obind (buf (t_key t) (t_key_size t)) (fun key =>
      obind (buf (t_in t) (t_in_size t)) (fun inp =>
      Done (mkRun Success (Some (arc4_loop (arc4_key_setup key) inp)) (t_in_size t) IvKept 0)))
  | r => Done (mkRun r None 0 IvKept 0)
  end.

(* ------------------------------------------------------------------ Salsa20, ChaCha20 *)
(* src/kryptos_salsa20_core.c:41-44 kryptos_salsa20_littleendian: byte reversal *)
Definition rev32 (w : N) : N :=
  or (or (or (shl32 w 24) (shl32 (and w 0x0000FF00) 8)) (shr (and w 0x00FF0000) 8)) (shr w 24).
(* src/kryptos_salsa20_core.c:13-20 kryptos_salsa20_quarterround on the array entries y0 .. y3 *)
Definition salsa_qr (y0 y1 y2 y3 : nat) (x : list N) : list N :=
  let x := upd x y1 (xor (nth y1 x 0) (rotl32 (add32 (nth y0 x 0) (nth y3 x 0)) 7)) in
  let x := upd x y2 (xor (nth y2 x 0) (rotl32 (add32 (nth y1 x 0) (nth y0 x 0)) 9)) in
  let x := upd x y3 (xor (nth y3 x 0) (rotl32 (add32 (nth y2 x 0) (nth y1 x 0)) 13)) in
  upd x y0 (xor (nth y0 x 0) (rotl32 (add32 (nth y3 x 0) (nth y2 x 0)) 18)).
(* src/kryptos_salsa20_core.c:22-27 *)
Definition salsa_rowround (y : list N) : list N :=
  salsa_qr 15 12 13 14 (salsa_qr 10 11 8 9 (salsa_qr 5 6 7 4 (salsa_qr 0 1 2 3 y))).
(* src/kryptos_salsa20_core.c:29-34 *)
Definition salsa_columnround (x : list N) : list N :=
  salsa_qr 15 3 7 11 (salsa_qr 10 14 2 6 (salsa_qr 5 9 13 1 (salsa_qr 0 4 8 12 x))).
(* src/kryptos_salsa20_core.c:36-39 *)
Definition salsa_doubleround (x : list N) : list N := salsa_rowround (salsa_columnround x).
(* xregs[0][i] += xregs[1][i] *)
Fixpoint addl (a b : list N) : list N :=
  match a, b with
  | x :: a', y :: b' => add32 x y :: addl a' b'
  | _, _ => []
  end.
(* src/kryptos_salsa20_core.c:51-200 kryptos_salsa20_H on 64 bytes *)
Definition salsa20_H (x : list N) : list N :=
  let x1 := map rev32 (load_be 4 16 x) in
  let x0 := Nat.iter 10 salsa_doubleround x1 in
  store_be 4 (map rev32 (addl x0 x1)).

(* src/kryptos_salsa20_core.c:231-244 kryptos_chacha20_quarterround *)
Definition chacha_qr (a b c d : nat) (x : list N) : list N :=
  let x := upd x a (add32 (nth a x 0) (nth b x 0)) in
  let x := upd x d (xor (nth d x 0) (nth a x 0)) in
  let x := upd x d (rotl32 (nth d x 0) 16) in
  let x := upd x c (add32 (nth c x 0) (nth d x 0)) in
  let x := upd x b (xor (nth b x 0) (nth c x 0)) in
  let x := upd x b (rotl32 (nth b x 0) 12) in
  let x := upd x a (add32 (nth a x 0) (nth b x 0)) in
  let x := upd x d (xor (nth d x 0) (nth a x 0)) in
  let x := upd x d (rotl32 (nth d x 0) 8) in
  let x := upd x c (add32 (nth c x 0) (nth d x 0)) in
  let x := upd x b (xor (nth b x 0) (nth c x 0)) in
  upd x b (rotl32 (nth b x 0) 7).
(* src/kryptos_salsa20_core.c:246-251 *)
Definition chacha_cr (x : list N) : list N :=
  chacha_qr 3 7 11 15 (chacha_qr 2 6 10 14 (chacha_qr 1 5 9 13 (chacha_qr 0 4 8 12 x))).
(* src/kryptos_salsa20_core.c:253-258 *)
Definition chacha_dr (x : list N) : list N :=
  chacha_qr 3 4 9 14 (chacha_qr 2 7 8 13 (chacha_qr 1 6 11 12 (chacha_qr 0 5 10 15 x))).
(* src/kryptos_salsa20_core.c:202-389 kryptos_chacha20_H on 64 bytes *)
Definition chacha20_H (x : list N) : list N :=
  let x1 := load_be 4 16 x in
  let x0 := Nat.iter 10 (fun x => chacha_dr (chacha_cr x)) x1 in
  store_be 4 (map rev32 (addl x0 x1)).

(* the words of n bytes, the bytes of each word in reverse order: src/kryptos_chacha20.c:161-199, 206-219 *)
Definition rev_words (n : nat) (l : list N) : list N := concat (map (fun i => rev (slice l (4 * i) 4)) (seq 0 n)).
(* src/kryptos_chacha20.c:21-24, 142-226 kryptos_chacha20_keystream_feed with the counter l *)
Definition chacha20_feed (key n : list N) (l : N) : list N :=
  chacha20_H (be_bytes 4 0x61707865 ++ be_bytes 4 0x3320646E ++ be_bytes 4 0x79622D32 ++ be_bytes 4 0x6B206574 ++
              rev_words 8 key ++ be_bytes 4 l ++ rev_words 3 n).

(* src/kryptos_chacha20.c:93-103, src/kryptos_salsa20.c:105-115: the two nested loops. step is the increment of
   the counter. The first argument bounds the number of blocks and is the length of the input. *)
Fixpoint stream_loop (fuel : nat) (feed : N -> list N) (step : N -> N) (l : N) (inp : list N) : list N * N :=
  match fuel with
  | O => ([], l)
  | S f => match inp with
           | [] => ([], l)
           | _ => let '(r, l') := stream_loop f feed step (step l) (skipn 64 inp) in
                  (xorl (firstn 64 inp) (feed l) ++ r, l')
           end
  end.

(* src/kryptos_chacha20.c:34-126 kryptos_chacha20_cipher and src/kryptos_salsa20.c:34-130
   kryptos_salsa20_cipher have the same frame: key size test, nonce from the caller, or fresh (rnd) and put in
   front of the output, or taken from the front of the input. With a fresh nonce the epilogues (120-123, 121-124)
   free the nonce and leave the iv field pointing to it; dec_iv tells what becomes of the iv field otherwise.
   Allocation failures are not modelled. *)
Definition nonce_frame (pem : pk_param -> list N -> bool) (ivlen : nat) (key_ok : N -> bool) (dec_iv : action -> iv_after)
    (run : list N -> list N -> list N -> list N * N) (l0 : N) (rnd : list N) (t : task) : outcome stream_run :=
  match task_check pem t with
  | Success =>
      if negb (key_ok (t_key_size t)) then Done (mkRun KeyError None 0 IvKept l0)
      else
      obind (buf (t_key t) (t_key_size t)) (fun key =>
      obind (buf (t_in t) (t_in_size t)) (fun inp =>
      match t_iv t with
      | Some iv =>
          obind (buf (Some iv) (N.of_nat ivlen)) (fun iv =>
          let '(out, l') := run key iv inp in
          Done (mkRun Success (Some out) (t_in_size t) IvKept l'))
      | None =>
          if negb (t_iv_size t =? 0) then UB
          else if action_beq (t_action t) Encrypt
          then let '(out, l') := run key rnd inp in
               Done (mkRun Success (Some (rnd ++ out)) (t_in_size t + N.of_nat ivlen) IvFreed l')
          else if t_in_size t <? N.of_nat ivlen then UB
          else let '(out, l') := run key (firstn ivlen inp) (skipn ivlen inp) in
               Done (mkRun Success (Some out) (t_in_size t - N.of_nat ivlen) (dec_iv (t_action t)) l')
      end))
  | r => Done (mkRun r None 0 IvKept l0)
  end.

(* src/kryptos_chacha20.c:34-126 kryptos_chacha20_cipher; counter is arg[0], read as a 32-bit word and written
   back. The iv field is reset only by kKryptosDecrypt (105-108); other actions free the input buffer through it. *)
Definition chacha20_cipher (pem : pk_param -> list N -> bool) (rnd : list N) (counter : option N) (t : task) : outcome stream_run :=
  let l0 := match counter with None => 0 | Some c => c end in
  nonce_frame pem 12 (fun n => n =? 32) (fun a => if action_beq a Decrypt then IvNull else IvFreed)
    (fun key iv inp => stream_loop (length inp) (chacha20_feed key iv) (fun l => add32 l 1) l0 inp) l0 rnd t.

(* src/kryptos_salsa20.c:26-29, 145-306 kryptos_salsa20_keystream_feed: nonce bytes as they are, counter l as 8
   little-endian bytes *)
Definition salsa20_feed (key n : list N) (l : N) : list N :=
  let k2 := if Nat.eqb (length key) 16 then key else skipn 16 key in   (* the switch on key_size *)
  salsa20_H (be_bytes 4 0x65787061 ++ firstn 16 key ++ be_bytes 4 0x6E642033 ++ n ++
             be_bytes 4 (rev32 (and l 0xFFFFFFFF)) ++ be_bytes 4 (rev32 (shr l 32)) ++
             be_bytes 4 0x322D6279 ++ firstn 16 k2 ++ be_bytes 4 0x7465206B).
(* src/kryptos_salsa20.c:34-130 kryptos_salsa20_cipher *)
Definition salsa20_cipher (pem : pk_param -> list N -> bool) (rnd : list N) (t : task) : outcome stream_run :=
  nonce_frame pem 8 (fun n => (n =? 32) || (n =? 16))%bool (fun _ => IvNull)
    (fun key iv inp => stream_loop (length inp) (salsa20_feed key iv) (fun l => addw 64 l 1) 0 inp) 0 rnd t.

(* ------------------------------------------------------------------ RABBIT *)
(* src/kryptos_rabbit.c:66-74 struct kryptos_rabbit_keystream *)
Record rabbit_state := mkRabbit { rb_X : list N; rb_C : list N; rb_b : N }.
(* src/kryptos_rabbit.c:17-24, 341-343 *)
Definition rabbit_A : list N :=
  [0x4D34D34D; 0xD34D34D3; 0x34D34D34; 0x4D34D34D; 0xD34D34D3; 0x34D34D34; 0x4D34D34D; 0xD34D34D3].
(* src/kryptos_rabbit.c:30-38 kryptos_rabbit_g. The square is computed in C in the signed type of the constant
   0x100000000, where it can overflow; modelled as the unsigned 64-bit product (two's complement wrap around);
   rabbit_square_fits tells when C defines the result. *)
Definition rabbit_square (u v : N) : N := (add32 u v mod 0x100000000) * (add32 u v mod 0x100000000).
Definition rabbit_square_fits (u v : N) : bool := rabbit_square u v <? 2 ^ 63.
Definition rabbit_g (u v : N) : N := xor (and (rabbit_square u v) 0xFFFFFFFF) (shr (rabbit_square u v) 32).
(* src/kryptos_rabbit.c:345-349, one round of kryptos_rabbit_ctr_system *)
Definition rabbit_ctr_round (s : N * list N) (j : nat) : N * list N :=
  let '(b, c) := s in
  let temp := add32 (add32 (nth j c 0) (nth j rabbit_A 0)) b in
  (if temp <? nth j c 0 then 1 else 0, upd c j temp).
(* src/kryptos_rabbit.c:336-364 *)
Definition rabbit_ctr_system (s : rabbit_state) : rabbit_state :=
  let '(b, c) := fold_left rabbit_ctr_round (seq 0 8) (rb_b s, rb_C s) in mkRabbit (rb_X s) c b.
(* src/kryptos_rabbit.c:366-388 kryptos_rabbit_nxt_state_func *)
Definition rabbit_nxt (s : rabbit_state) : rabbit_state :=
  let g := fun j => rabbit_g (nth j (rb_X s) 0) (nth j (rb_C s) 0) in
  mkRabbit
    [ add32 (add32 (g 0%nat) (rotl32 (g 7%nat) 16)) (rotl32 (g 6%nat) 16);
      add32 (add32 (g 1%nat) (rotl32 (g 0%nat) 8)) (g 7%nat);
      add32 (add32 (g 2%nat) (rotl32 (g 1%nat) 16)) (rotl32 (g 0%nat) 16);
      add32 (add32 (g 3%nat) (rotl32 (g 2%nat) 8)) (g 1%nat);
      add32 (add32 (g 4%nat) (rotl32 (g 3%nat) 16)) (rotl32 (g 2%nat) 16);
      add32 (add32 (g 5%nat) (rotl32 (g 4%nat) 8)) (g 3%nat);
      add32 (add32 (g 6%nat) (rotl32 (g 5%nat) 16)) (rotl32 (g 4%nat) 16);
      add32 (add32 (g 7%nat) (rotl32 (g 6%nat) 8)) (g 5%nat) ]
    (rb_C s) (rb_b s).
(* src/kryptos_rabbit.c:40-43 *)
Definition rabbit_iter (s : rabbit_state) : rabbit_state := rabbit_nxt (rabbit_ctr_system s).
(* src/kryptos_rabbit.c:166-230 kryptos_rabbit_ld_user_key: the key reversed, loaded in 8 words, words reversed.
   ktemp is taken to be allocated. *)
Definition rabbit_ld_user_key (key : list N) : list N := rev (ld_user_key 2 8 16 (rev key)).
(* src/kryptos_rabbit.c:247-264 *)
Definition rabbit_key_words (hi lo : nat) (k : list N) : N := or (shl32 (nth (Nat.modulo hi 8) k 0) 16) (nth (Nat.modulo lo 8) k 0).
Definition rabbit_init (k : list N) : rabbit_state :=
  mkRabbit
    (map (fun j => if Nat.even j then rabbit_key_words (j + 1) j k else rabbit_key_words (j + 5) (j + 4) k) (seq 0 8))
    (map (fun j => if Nat.even j then rabbit_key_words (j + 4) (j + 5) k else rabbit_key_words j (j + 1) k) (seq 0 8))
    0.
(* src/kryptos_rabbit.c:276-287 *)
Definition rabbit_reinit (s : rabbit_state) : rabbit_state :=
  mkRabbit (rb_X s) (map (fun j => xor (nth j (rb_C s) 0) (nth (Nat.modulo (j + 4) 8) (rb_X s) 0)) (seq 0 8)) (rb_b s).
(* src/kryptos_rabbit.c:291-303 the four IV words *)
Definition rabbit_iv_words (iv64 : list N) : list N :=
  let iv := le_val (firstn 8 iv64) in
  [ and iv 0xFFFFFFFF;
    or (shl32 (shr iv 48) 16) (and (shr iv 16) 0xFFFF);
    shr iv 32;
    or (shl32 (and (shr iv 32) 0xFFFF) 16) (and iv 0xFFFF) ].
(* src/kryptos_rabbit.c:305-324 *)
Definition rabbit_iv_setup (iv64 : list N) (s : rabbit_state) : rabbit_state :=
  Nat.iter 4 rabbit_iter
    (mkRabbit (rb_X s) (xorl (rb_C s) (rabbit_iv_words iv64 ++ rabbit_iv_words iv64)) (rb_b s)).
(* src/kryptos_rabbit.c:233-334 kryptos_rabbit_key_setup *)
Definition rabbit_key_setup (key : list N) (iv : option (list N)) : rabbit_state :=
  let s := rabbit_reinit (Nat.iter 4 rabbit_iter (rabbit_init (rabbit_ld_user_key key))) in
  match iv with None => s | Some iv64 => rabbit_iv_setup iv64 s end.
(* src/kryptos_rabbit.c:45-55 kryptos_rabbit_extract after the iteration: S[1] and S[0] *)
Definition rabbit_S1 (x : list N) : N :=
  or (or (or (xor (and (nth 0 x 0) 0xFFFF) (and (shr (nth 5 x 0) 16) 0xFFFF))
             (shlw 64 (xor (and (shr (nth 0 x 0) 16) 0xFFFF) (and (nth 3 x 0) 0xFFFF)) 16))
         (shlw 64 (xor (and (nth 2 x 0) 0xFFFF) (and (shr (nth 7 x 0) 16) 0xFFFF)) 32))
     (shlw 64 (xor (and (shr (nth 2 x 0) 16) 0xFFFF) (and (nth 5 x 0) 0xFFFF)) 48).
Definition rabbit_S0 (x : list N) : N :=
  or (or (or (xor (and (nth 4 x 0) 0xFFFF) (and (shr (nth 1 x 0) 16) 0xFFFF))
             (shlw 64 (xor (and (shr (nth 4 x 0) 16) 0xFFFF) (and (nth 7 x 0) 0xFFFF)) 16))
         (shlw 64 (xor (and (nth 6 x 0) 0xFFFF) (and (shr (nth 3 x 0) 16) 0xFFFF)) 32))
     (shlw 64 (xor (and (shr (nth 6 x 0) 16) 0xFFFF) (and (nth 1 x 0) 0xFFFF)) 48).
(* src/kryptos_rabbit.c:390-405 kryptos_rabbit_xor. kryptos_rabbit_rev64 (57-64) of a big-endian load or store is
   a little-endian load or store. *)
Definition rabbit_xor (block : list N) (s : rabbit_state) : list N * rabbit_state :=
  let s := rabbit_iter s in
  (le_bytes 8 (xor (le_val (slice block 0 8)) (rabbit_S1 (rb_X s))) ++
   le_bytes 8 (xor (le_val (slice block 8 8)) (rabbit_S0 (rb_X s))), s).
(* src/kryptos_rabbit.c:142-152: blocks of 16 input bytes in outblock; the last one may be shorter, then the rest
   of outblock keeps what it held *)
Fixpoint rabbit_loop (fuel : nat) (outblock : list N) (s : rabbit_state) (inp : list N) : list N :=
  match fuel, inp with
  | S f, _ :: _ =>
      let c := firstn 16 inp in
      let '(outblock, s) := rabbit_xor (c ++ skipn (length c) outblock) s in
      firstn (length c) outblock ++ rabbit_loop f outblock s (skipn 16 inp)
  | _, _ => []
  end.
(* src/kryptos_rabbit.c:117-164 kryptos_rabbit_cipher; it does not call kryptos_task_check. junk is what the
   uninitialised local outblock holds. *)
Definition rabbit_cipher (junk : list N) (t : task) : outcome stream_run :=
  obind (buf (t_key t) (t_key_size t)) (fun key =>
  obind (match t_iv t with
         | None => Done None
         | Some iv => obind (buf (Some iv) 8) (fun iv => Done (Some iv))
         end) (fun iv =>
  obind (buf (t_in t) (t_in_size t)) (fun inp =>
  Done (mkRun Success (Some (rabbit_loop (length inp) junk (rabbit_key_setup key iv) inp)) (t_in_size t) IvKept 0)))).

(* ------------------------------------------------------------------ SEAL *)
(* src/kryptos_types.h kryptos_seal_version_t; any other value of the enumeration *)
Inductive seal_version := Seal20 | Seal30 | SealOther.
(* src/kryptos_seal.c:16-18 *)
Definition seal_f (b c d : N) : N := or (and b c) (and (notw 32 b) d).
Definition seal_g (b c d : N) : N := or (or (and b c) (and b d)) (and c d).
Definition seal_h (b c d : N) : N := xor (xor b c) d.
(* src/kryptos_seal.c:77-84: X[0] = i, 15 zeros, then the recurrence *)
Definition seal_X (i : N) : list N :=
  fold_left (fun x w => x ++ [rotl32 (xor (xor (xor (nth (w - 3) x 0) (nth (w - 8) x 0)) (nth (w - 14) x 0)) (nth (w - 16) x 0)) 1])
    (seq 16 64) (i :: repeat 0 15).
(* src/kryptos_seal.c:94-131 *)
Definition seal_round (w : nat) (b c d : N) : N * N :=
  if (w <? 20)%nat then (seal_f b c d, 0x5a827999)
  else if (w <? 40)%nat then (seal_h b c d, 0x6ed9eba1)
  else if (w <? 60)%nat then (seal_g b c d, 0x8f1bbcdc)
  else (seal_h b c d, 0xca62c1d6).
(* src/kryptos_seal.c:72-142 kryptos_seal_ga *)
Definition seal_ga (a : list N) (i : N) : list N :=
  let X := seal_X i in
  let st := fold_left (fun s w =>
      let '(A, B, C, D, E) := s in
      let '(f, y) := seal_round w B C D in
      let t := add32 (add32 (add32 (add32 (rotl32 A 5) f) E) (nth w X 0)) y in
      (t, A, rotl32 B 30, C, D)) (seq 0 80)
    (nth 0 a 0, nth 1 a 0, nth 2 a 0, nth 3 a 0, nth 4 a 0) in
  let '(A, B, C, D, E) := st in
  [add32 (nth 0 a 0) A; add32 (nth 1 a 0) B; add32 (nth 2 a 0) C; add32 (nth 3 a 0) D; add32 (nth 4 a 0) E].
(* src/kryptos_seal.c:144-166 kryptos_seal_ld_userkey with 5 words *)
Definition seal_ld_userkey (key : list N) : list N :=
  let '(st, s, k) := fold_left (fun '(st, s, k) b =>
      let st := upd st s (or (shl32 (nth s st 0) 8) b) in
      (st, if Nat.eqb (Nat.modulo (S k) 4) 0 then Nat.modulo (s + 1) 5 else s, S k)) key (repeat 0 5, 0%nat, 0%nat) in
  upd st s (Nat.iter (Nat.modulo (4 - Nat.modulo k 4) 4) (fun w => shl32 w 4) (nth s st 0)).
(* src/kryptos_seal.c:194-200 *)
Definition seal_T (a : list N) : list N := firstn 512 (concat (map (seal_ga a) (range 103))).
(* src/kryptos_seal.c:202-214 *)
Definition seal_S (a : list N) : list N :=
  firstn 256 (skipn 1 (seal_ga a 819) ++ concat (map (fun i => seal_ga a (819 + (1 + i))) (range 51))).
(* src/kryptos_seal.c:216-235; until is signed *)
Definition seal_R (a : list N) (L : N) : list N :=
  let until := (Z.of_N (N.shiftl (N.shiftr (L - 1) 13) 2) - 1)%Z in
  skipn 2 (seal_ga a 1638) ++ seal_ga a 1639 ++
  concat (map (fun i => seal_ga a (1638 + (2 + i))) (range (Z.to_nat (until - 1)))).
(* T[P >> 2] *)
Definition seal_t (T : list N) (p : N) : N := nth (N.to_nat (shr p 2)) T 0.
Definition rotr9 (x : N) : N := rotr32 x 9.
Definition seal_m (x : N) : N := and x 0x000007fc.
(* src/kryptos_seal.c:31-34, 35-38, 40-43: four lines of kryptos_seal_initialize *)
Definition seal_four (T : list N) (s : N * N * N * N) : N * N * N * N :=
  let '(A, B, C, D) := s in
  let B := add32 B (seal_t T (seal_m A)) in let A := rotr9 A in
  let C := add32 C (seal_t T (seal_m B)) in let B := rotr9 B in
  let D := add32 D (seal_t T (seal_m C)) in let C := rotr9 C in
  let A := add32 A (seal_t T (seal_m D)) in let D := rotr9 D in
  (A, B, C, D).
(* src/kryptos_seal.c:26-43 kryptos_seal_initialize: (A, B, C, D) and (n1, n2, n3, n4) *)
Definition seal_initialize (n : N) (l : nat) (T R : list N) : (N * N * N * N) * (N * N * N * N) :=
  let s := (xor n (nth (4 * l) R 0), xor (rotr32 n 8) (nth (4 * l + 1) R 0),
            xor (rotr32 n 16) (nth (4 * l + 2) R 0), xor (rotr32 n 24) (nth (4 * l + 3) R 0)) in
  let s := seal_four T (seal_four T s) in
  let '(A, B, C, D) := s in
  (seal_four T s, (D, B, A, C)).
(* src/kryptos_seal.c:246-254 *)
Definition seal_mix (T : list N) (s : N * N * N * N) : N * N * N * N :=
  let '(A, B, C, D) := s in
  let P := seal_m A in let B := add32 B (seal_t T P) in let A := rotr9 A in let B := xor B A in
  let Q := seal_m B in let C := xor C (seal_t T Q) in let B := rotr9 B in let C := add32 C B in
  let P := seal_m (add32 P C) in let D := add32 D (seal_t T P) in let C := rotr9 C in let D := xor D C in
  let Q := seal_m (add32 Q D) in let A := xor A (seal_t T Q) in let D := rotr9 D in let A := add32 A D in
  let P := seal_m (add32 P A) in let B := xor B (seal_t T P) in let A := rotr9 A in
  let Q := seal_m (add32 Q B) in let C := add32 C (seal_t T Q) in let B := rotr9 B in
  let P := seal_m (add32 P C) in let D := xor D (seal_t T P) in let C := rotr9 C in
  let Q := seal_m (add32 Q D) in let A := add32 A (seal_t T Q) in let D := rotr9 D in
  (A, B, C, D).
(* src/kryptos_seal.c:267-295 *)
Definition seal_add (v : seal_version) (s : N * N * N * N) (na nb : N) : N * N * N * N :=
  let '(A, B, C, D) := s in
  match v with
  | Seal20 => (add32 A na, B, add32 C nb, D)
  | _ => (add32 A na, add32 B nb, xor C na, xor D nb)
  end.
(* src/kryptos_seal.c:245-297: the 64 steps of one l; four words each. The model produces all of them and cuts the
   key stream to its length afterwards; the C loops stop at that length. *)
Definition seal_step (v : seal_version) (T box : list N) (ns : N * N * N * N) (st : (N * N * N * N) * list N) (i : nat)
    : (N * N * N * N) * list N :=
  let '(n1, n2, n3, n4) := ns in
  let s := seal_mix T (fst st) in
  let '(A, B, C, D) := s in
  (seal_add v s (if Nat.odd i then n1 else n3) (if Nat.odd i then n2 else n4),
   snd st ++ [add32 B (nth (4 * i - 4) box 0); xor C (nth (4 * i - 3) box 0);
              add32 D (nth (4 * i - 2) box 0); xor A (nth (4 * i - 1) box 0)]).
Definition seal_steps (v : seal_version) (T box : list N) (init : (N * N * N * N) * (N * N * N * N)) : list N :=
  snd (fold_left (seal_step v T box (snd init)) (seq 1 64) (fst init, [])).
(* src/kryptos_seal.c:168-341 kryptos_seal_keystream with L = 32 * wordsize: wordsize words *)
Definition seal_keystream (v : seal_version) (key : list N) (n wordsize : N) : list N :=
  let a := seal_ld_userkey key in
  let T := seal_T a in
  let box := seal_S a in
  let R := seal_R a (32 * wordsize) in
  firstn (N.to_nat wordsize)
    (concat (map (fun l => seal_steps v T box (seal_initialize n l T R)) (seq 0 (N.to_nat ((wordsize + 255) / 256))))).
(* src/kryptos_seal.c:419-512: blocks of 4 * wordsize input bytes, the last one may be shorter; words are
   big-endian and the bytes of a last incomplete word are its most significant ones, so the exclusive or of the
   words is the exclusive or of the bytes with the big-endian bytes of the key stream *)
Fixpoint seal_loop (fuel : nat) (ks : N -> list N) (wordsize : N) (n : N) (inp : list N) : list N :=
  match fuel, inp with
  | S f, _ :: _ =>
      let b := (4 * N.to_nat wordsize)%nat in
      xorl (firstn b inp) (store_be 4 (ks n)) ++ seal_loop f ks wordsize (add32 n 1) (skipn b inp)
  | _, _ => []
  end.
(* src/kryptos_seal.c:354-527 kryptos_seal_cipher; ver, L and n are arg[0], arg[1] and arg[2]. With an unknown
   version the key stream is never written (186-189) and the C code uses uninitialised memory: UB. *)
Definition seal_cipher (pem : pk_param -> list N -> bool) (ver : option seal_version) (L n : option N) (t : task)
    : outcome stream_run :=
  match task_check pem t with
  | Success =>
      match ver, L with
      | None, _ | _, None => Done (mkRun InvalidParams None 0 IvKept 0)
      | Some v, Some wordsize =>
          if (wordsize <? 1) || (0xffff <? wordsize) then Done (mkRun InvalidParams None 0 IvKept 0)
          else match v with
               | SealOther => UB
               | _ =>
                   let n := match n with None => 0 | Some n => n mod 2 ^ 32 end in
                   obind (buf (t_key t) (t_key_size t)) (fun key =>
                   obind (buf (t_in t) (t_in_size t)) (fun inp =>
                   Done (mkRun Success (Some (seal_loop (length inp) (fun n => seal_keystream v key n wordsize) wordsize n inp))
                           (t_in_size t) IvKept 0)))
               end
      end
  | r => Done (mkRun r None 0 IvKept 0)
  end.
