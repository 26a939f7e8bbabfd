(* SipHash and the Poly1305 task. Buffers and their sizes agree (the size is the length of the list); allocations succeed. *)
From Verif Require Import Words TaskModel CipherBase MacModel.
Open Scope N_scope.

Notation add64 := (addw 64).
Notation shl64 := (shlw 64).
(* src/kryptos_siphash.c:16 kryptos_siphash_rotl; (v << l) | (v >> (64 - l)) on a 64-bit word *)
Definition sip_rotl (v l : N) : N := or (shl64 v l) (shr v (64 - l)).
(* src/kryptos_siphash.c:18-33 kryptos_sipround *)
Definition sipround (v : N * N * N * N) : N * N * N * N :=
  let '(v0, v1, v2, v3) := v in
  let v0 := add64 v0 v1 in
  let v2 := add64 v2 v3 in
  let v1 := sip_rotl v1 13 in
  let v3 := sip_rotl v3 16 in
  let v1 := xor v1 v0 in
  let v3 := xor v3 v2 in
  let v0 := sip_rotl v0 32 in
  let v2 := add64 v2 v1 in
  let v0 := add64 v0 v3 in
  let v1 := sip_rotl v1 17 in
  let v3 := sip_rotl v3 21 in
  let v1 := xor v1 v2 in
  let v3 := xor v3 v0 in
  let v2 := sip_rotl v2 32 in
  (v0, v1, v2, v3).
(* src/kryptos_siphash.c:229-234, 256-260: m |= (u64)*up << (mi << 3), from byte index mi on *)
Fixpoint sip_or (m : N) (mi : N) (l : list N) : N :=
  match l with [] => m | b :: l => sip_or (or m (shl64 b (shl64 mi 3))) (mi + 1) l end.
(* src/kryptos_siphash.c:266-277: the loop over the message. rest is what lies between up and up_end, size the message_size.
   fuel: one turn consumes up to eight bytes *)
Fixpoint sip_loop (fuel : nat) (c : nat) (size : N) (rest : list N) (v : N * N * N * N) : N * N * N * N :=
  match fuel, rest with
  | S fuel, _ :: _ =>
      let m := sip_or (if Nat.ltb (length rest) 8 then shl64 (size mod 256) 56 else 0) 0 (firstn 8 rest) in
      let '(v0, v1, v2, v3) := v in
      let '(v0, v1, v2, v3) := Nat.iter c sipround (v0, v1, v2, xor v3 m) in
      sip_loop fuel c size (skipn 8 rest) (xor v0 m, v1, v2, v3)
  | _, _ => v
  end.
(* src/kryptos_siphash.c:207-310 kryptos_do_siphash; key has 16 bytes *)
Definition do_siphash (message key : list N) (c d : nat) : N :=
  let k0 := sip_or 0 0 (firstn 8 key) in
  let k1 := sip_or 0 0 (skipn 8 key) in
  let size := N.of_nat (length message) in
  let v := sip_loop (length message) c size message
             (xor 0x736F6D6570736575 k0, xor 0x646F72616E646F6D k1, xor 0x6C7967656E657261 k0, xor 0x7465646279746573 k1) in
  let v := if size mod 8 =? 0
           then let '(v0, v1, v2, v3) := v in
                let '(v0, v1, v2, v3) := Nat.iter c sipround (v0, v1, v2, xor v3 (shl64 (size mod 256) 56)) in
                (xor v0 (shl64 (size mod 256) 56), v1, v2, v3)
           else v in
  let '(v0, v1, v2, v3) := v in
  let '(v0, v1, v2, v3) := Nat.iter d sipround (v0, v1, xor v2 0xFF, v3) in
  xor (xor (xor v0 v1) v2) v3.

(* src/kryptos_siphash.c:66-72, src/kryptos_poly1305.c:42-51: the bytes of the key after the 16th xored into the first 16 *)
Definition fold_key (key : list N) : list N :=
  fst (fold_left (fun '(ek, k) b => (upd ek k (xor (nth k ek 0) b), ((k + 1) mod 16)%nat)) (skipn 16 key) (firstn 16 key, O)).
(* src/kryptos_siphash.c:56-73; the test key_size == 0 is not made (line 58 compares the pointer) *)
Definition sip_key (key : list N) : list N :=
  if Nat.leb (length key) 16 then key ++ repeat 0 (16 - length key) else fold_key key.
(* src/kryptos_siphash.c:49-168 kryptos_siphash *)
Definition kryptos_siphash (c d : nat) (t : mac_task) : outcome mac_task :=
  match mt_key t with
  | None => Done (set_result t KeyError)
  | Some key =>
      match mt_action t with
      | Encrypt =>
          match mt_out t with
          | Some (b :: x) =>
              let o := do_siphash (b :: x) (sip_key key) c d in
              let tag := [and (shr o 56) 0xFF; and (shr o 48) 0xFF; and (shr o 40) 0xFF; and (shr o 32) 0xFF;
                          and (shr o 24) 0xFF; and (shr o 16) 0xFF; and (shr o 8) 0xFF; and o 0xFF] in
              Done (mkMT (mt_action t) (mt_key t) (mt_in t) (Some (tag ++ b :: x)) Success)
          | _ => Done (set_result t SipHashError)
          end
      | Decrypt =>
          match mt_in t with
          | Some inp =>
              if Nat.leb (length inp) 8 then Done (set_result t SipHashError)
              else if do_siphash (skipn 8 inp) (sip_key key) c d =? be_val (firstn 8 inp)
              then Done (mkMT (mt_action t) (mt_key t) (Some (skipn 8 inp)) (mt_out t) Success)
              else Done (set_result t SipHashError)
          | None => Done (set_result t SipHashError)
          end
      | _ => Done (set_result t NoSupport)
      end
  end.
(* src/kryptos_siphash.c:170-204 kryptos_siphash_sum. The expanded key is computed but line 195 passes the 16 bytes behind the
   user's pointer: UB when there are fewer. *)
Definition siphash_sum (message : option (list N)) (message_size : N) (key : option (list N)) (c d : nat) : outcome N :=
  match key with
  | None => Done 0
  | Some key =>
      if (Nat.eqb c 0 || Nat.eqb d 0 || Nat.eqb (length key) 0 || match message with None => 0 <? message_size | _ => false end)%bool then Done 0
      else if Nat.ltb (length key) 16 then UB
      else Done (do_siphash (match message with Some m => m | None => [] end) (firstn 16 key) c d)
  end.

(* ------------------------------------------------------------------ Poly1305 *)
(* src/kryptos_poly1305.c:67-246 kryptos_poly1305. tag is kryptos_poly1305_tag (message, 32-byte key), nonce n the n bytes
   kryptos_get_random_block returns. *)
Definition kryptos_poly1305 (tag : list N -> list N -> outcome (list N)) (nonce : nat -> list N) (t : mac_task) : outcome mac_task :=
  let ks := match mt_key t with Some k => length k | None => O end in
  if Nat.ltb 32 ks then Done (set_result t POLY1305Error)
  else
    match mt_action t with
    | Encrypt =>
        match mt_out t, mt_key t with
        | Some (b :: x), Some (k0 :: k) =>
            let n := (32 - ks)%nat in
            obind (tag (b :: x) ((k0 :: k) ++ nonce n)) (fun g =>
            Done (mkMT (mt_action t) (mt_key t) (mt_in t) (Some (g ++ nonce n ++ b :: x)) Success))
        | _, _ => Done (set_result t POLY1305Error)
        end
    | Decrypt =>
        match mt_in t, mt_key t with
        | Some (b :: inp), Some (k0 :: k) =>
            let n := (32 - ks)%nat in
            if Nat.leb (length (b :: inp)) (n + 16) then Done (set_result t POLY1305Error)
            else
              let x := skipn (16 + n) (b :: inp) in
              obind (tag x ((k0 :: k) ++ firstn n (skipn 16 (b :: inp)))) (fun g =>
              if eqb_list g (firstn 16 (b :: inp))
              then Done (mkMT (mt_action t) (mt_key t) (Some x) (mt_out t) Success)
              else Done (set_result t POLY1305Error))
        | _, _ => Done (set_result t POLY1305Error)
        end
    | _ => Done (set_result t Success)
    end.
(* src/kryptos_poly1305.c:20-65 kryptos_do_poly1305: without a key nothing is done and the result stays what it was; the user's
   key is put back *)
Definition do_poly1305 (tag : list N -> list N -> outcome (list N)) (nonce : nat -> list N) (t : mac_task) : outcome mac_task :=
  match mt_key t with
  | None | Some [] => Done t
  | Some key =>
      let ek := if Nat.ltb 16 (length key) then fold_key key else key in
      obind (kryptos_poly1305 tag nonce (mkMT (mt_action t) (Some ek) (mt_in t) (mt_out t) (mt_result t))) (fun t' =>
      Done (mkMT (mt_action t') (Some key) (mt_in t') (mt_out t') (mt_result t')))
  end.

(* src/kryptos_poly1305_mp.c:144-187 kryptos_poly1305_mul with 64-bit digits: x, y and the product array pp have
   kKryptosPoly1305NumberSize = 7 digits. UB: an index outside pp. One turn of the inner loop, the inner loop, the outer loop. *)
Definition poly_size : nat := 7.
Definition wr (l : list N) (i : N) (v : N) : outcome (list N) := if Nat.ltb (N.to_nat i) (length l) then Done (upd l (N.to_nat i) v) else UB.
Definition poly_mul_step (y : N) (yoff : nat) (s : N * N * list N) (xi : nat * N) : outcome (N * N * list N) :=
  let '(mc, ac, pp) := s in
  let '(xoff, x) := xi in
  let bmul := y * x + mc in
  obind (rd pp (N.of_nat (yoff + xoff))) (fun w =>
  let bsum := w + bmul mod 2 ^ 64 + ac in
  obind (wr pp (N.of_nat (yoff + xoff)) (bsum mod 2 ^ 64)) (fun pp =>
  Done (bmul / 2 ^ 64, (if 2 ^ 64 - 1 <? bsum then 1 else 0), pp))).
Definition poly_mul_row (x : list N) (y : N) (yoff : nat) (pp : list N) : outcome (list N) :=
  obind (fold_left (fun s xi => obind s (fun s => poly_mul_step y yoff s xi)) (combine (seq 0 poly_size) x) (Done (0, 0, pp))) (fun '(mc, ac, pp) =>
  if Nat.ltb (poly_size + yoff) poly_size
  then obind (rd pp (N.of_nat (poly_size + yoff))) (fun w => wr pp (N.of_nat (poly_size + yoff)) ((w + mc + ac) mod 2 ^ 64))
  else Done pp).
Definition poly_mul (x y : list N) : outcome (list N) :=
  fold_left (fun s yi => obind s (fun pp => poly_mul_row x (snd yi) (fst yi) pp)) (combine (seq 0 poly_size) y) (Done (repeat 0 poly_size)).
