(* HMAC, the cipher+MAC pipeline, HKDF, PBKDF2, HOTP and TOTP. The hash functions they are given are parameters; the ones of
   HashModel.v are instances (hash_fn). Buffers and their sizes agree here (the size is the length of the list); allocations
   succeed. *)
From Verif Require Import Words TaskModel CipherBase HashModel.
Open Scope N_scope.

(* src/kryptos_types.h:811-849 kryptos_hash_func called with to_hex = 0 on a task whose in is m: the digest it leaves in out.
   The three function pointers h, h_input_size, h_size; None is NULL. *)
Record hash_ptrs := mkPtrs { h_fn : option (list N -> outcome (list N)); h_input_size : option nat; h_size : option nat }.
Definition hash_fn (h : hash_params) (m : list N) : outcome (list N) :=
  obind (hash_processor h false (Some m) (N.of_nat (length m))) (fun r =>
  match hr_out r with Some d => Done d | None => UB end).

(* the fields of a task these functions use *)
Record mac_task := mkMT { mt_action : action; mt_key : option (list N); mt_in : option (list N); mt_out : option (list N); mt_result : result }.
Definition set_result (t : mac_task) (r : result) : mac_task := mkMT (mt_action t) (mt_key t) (mt_in t) (mt_out t) r.

(* src/kryptos_hmac.c:151-367 kryptos_hmac_gen, once the three pointers are known not to be NULL. UB: the (hashed) key does not
   fit in the block buffer. The result is the MAC followed by x. *)
Definition hmac_gen (fn : list N -> outcome (list N)) (bs : nat) (key x : list N) : outcome (list N) :=
  obind (if Nat.ltb bs (length key) then fn key else Done key) (fun lkey =>
  if Nat.ltb bs (length lkey) then UB
  else
    let padded := lkey ++ repeat 0 (bs - length lkey) in
    obind (fn (map (fun k => xor k 0x36) padded ++ x)) (fun inner =>
    obind (fn (map (fun k => xor k 0x5C) padded ++ inner)) (fun outer =>
    Done (outer ++ x)))).

(* src/kryptos_hmac.c:94-149 kryptos_hmac_check. For in_size <= h_size the size of x is 0 or wraps around; in both cases the
   result is kKryptosHMACError (no memory, or incomplete input data). *)
Definition hmac_check (fn : list N -> outcome (list N)) (bs hs : nat) (key inp : list N) (t : mac_task) : outcome mac_task :=
  if Nat.leb (length inp) hs then Done (set_result t HMACError)
  else
    let x := skipn hs inp in
    obind (hmac_gen fn bs key x) (fun hmac =>
    if eqb_list (firstn hs hmac) (firstn hs inp)
    then Done (mkMT (mt_action t) (mt_key t) (Some x) (mt_out t) Success)
    else Done (set_result t HMACError)).

(* src/kryptos_hmac.c:33-92 kryptos_hmac *)
Definition kryptos_hmac (p : hash_ptrs) (t : mac_task) : outcome mac_task :=
  match h_fn p, h_input_size p, h_size p, mt_key t with
  | Some fn, Some bs, Some hs, Some key =>
      match mt_action t with
      | Encrypt =>
          match mt_out t with
          | Some (b :: x) => obind (hmac_gen fn bs key (b :: x)) (fun o => Done (mkMT (mt_action t) (mt_key t) (mt_in t) (Some o) Success))
          | _ => Done (set_result t HMACError)
          end
      | Decrypt =>
          match mt_in t with
          | Some (b :: x) => hmac_check fn bs hs key (b :: x) t
          | _ => Done (set_result t HMACError)
          end
      | _ => Done (set_result t HMACError)
      end
  | _, _, _, _ => Done (set_result t HMACError)
  end.

(* src/kryptos.h:572-596 kryptos_run_cipher_hmac, 623-640 kryptos_run_cipher_poly1305, 642-659 kryptos_run_cipher_siphash: cipher
   is kryptos_run_cipher (src/kryptos.h:565-570), mac one of kryptos_hmac, kryptos_do_poly1305, kryptos_siphash, both on the
   task whose key is already set by kryptos_..._setup *)
Definition run_cipher_mac (cipher mac : mac_task -> outcome mac_task) (t : mac_task) : outcome mac_task :=
  match mt_action t with
  | Encrypt => obind (cipher t) (fun t => if result_beq (mt_result t) Success then mac t else Done t)
  | Decrypt => obind (mac t) (fun t => if result_beq (mt_result t) Success then cipher t else Done t)
  | _ => Done t
  end.

(* ------------------------------------------------------------------ HKDF *)
(* a call of kryptos_hmac that generates a MAC, on a fresh task *)
Definition hmac_call (p : hash_ptrs) (key x : list N) : outcome mac_task :=
  kryptos_hmac p (mkMT Encrypt (Some key) None (Some x) Success).
(* src/kryptos_hkdf.c:78-117: the loop; room is okm_t - okm_h, T the first T_size bytes of T, okm what has been written. A failing
   HMAC ends it (None). fuel bounds the number of turns; UB when it is used up. *)
Fixpoint hkdf_loop (fuel : nat) (p : hash_ptrs) (prk info : list N) (hs room : nat) (sfx : N) (T okm : list N) : outcome (option (list N)) :=
  match room with
  | O => Done (Some okm)
  | _ =>
    match fuel with
    | O => UB
    | S fuel =>
      obind (hmac_call p prk (T ++ info ++ [sfx])) (fun t =>
      match mt_result t, mt_out t with
      | Success, Some out =>
          let n := if Nat.leb hs room then hs else room in
          hkdf_loop fuel p prk info hs (room - n) ((sfx + 1) mod 256) (firstn n out) (okm ++ firstn n out)
      | _, _ => Done None
      end)
    end
  end.
(* src/kryptos_hkdf.c:11-144 kryptos_do_hkdf. NULL hash functions are replaced by those of SHA-256, except that line 68 calls
   h_size itself (UB for NULL). A NULL result is None. The sizes given for NULL salt and info are separate arguments. *)
Definition do_hkdf (p : hash_ptrs) (ikm salt : option (list N)) (salt_size : N) (info : option (list N)) (info_size : N) (osize : nat)
  : outcome (option (list N)) :=
  let lp := mkPtrs (match h_fn p with None => Some (hash_fn sha256) | f => f end)
                   (match h_input_size p with None => Some 64%nat | s => s end)
                   (match h_size p with None => Some 32%nat | s => s end) in
  let lhs := match h_size p with None => 32%nat | Some s => s end in
  match ikm with
  | None => Done None
  | Some ikm =>
      if (match salt with None => 0 <? salt_size | _ => false end || match info with None => 0 <? info_size | _ => false end ||
          Nat.eqb osize 0 || Nat.ltb (255 * lhs) osize)%bool then Done None
      else
        let lsalt := match salt with None => [] | Some s => s end in
        let linfo := match info with None => [] | Some i => i end in
        obind (hmac_call lp lsalt ikm) (fun t =>
        match mt_result t, mt_out t with
        | Success, Some out =>
            match h_size p with
            | None => UB
            | Some hs => hkdf_loop osize lp (firstn hs out) linfo hs osize 1 [] []
            end
        | _, _ => Done None
        end)
  end.

(* ------------------------------------------------------------------ PBKDF2 *)
(* src/kryptos_pbkdf2.c:139-154: count further turns of the loop; out is the out of the task io. The MAC is taken over its first hlen bytes. *)
Fixpoint pbkdf2_rounds (count : nat) (p : hash_ptrs) (key : option (list N)) (hlen : nat) (out dk : list N) : outcome (option (list N)) :=
  match count with
  | O => Done (Some dk)
  | S count =>
      obind (kryptos_hmac p (mkMT Encrypt key None (Some (firstn hlen out)) Success)) (fun t =>
      match mt_result t, mt_out t with
      | Success, Some out => pbkdf2_rounds count p key hlen out (xorl dk (firstn hlen out))
      | _, _ => Done None
      end)
  end.
(* src/kryptos_pbkdf2.c:95-162 kryptos_pbkdf2_f; the count is unbounded in the model. UB: salt NULL with a size, which leaves
   uninitialised bytes in the message. *)
Definition pbkdf2_f (p : hash_ptrs) (password salt : option (list N)) (salt_size count : N) (hlen : nat) (i : N) : outcome (option (list N)) :=
  obind (match salt with Some s => Done s | None => if salt_size =? 0 then Done [] else UB end) (fun s =>
  obind (kryptos_hmac p (mkMT Encrypt password None (Some (s ++ [shr i 24 mod 256; and (shr i 16) 0xFF; and (shr i 8) 0xFF; and i 0xFF])) Success)) (fun t =>
  match mt_result t, mt_out t with
  | Success, Some out => pbkdf2_rounds (N.to_nat (count - 1)) p password hlen out (firstn hlen out)
  | _, _ => Done None
  end)).
(* src/kryptos_pbkdf2.c:50-77: the loop; room is dk_p_end - dk_p *)
Fixpoint pbkdf2_loop (fuel : nat) (p : hash_ptrs) (password salt : option (list N)) (salt_size count : N) (hlen room : nat) (i : N) (dk : list N)
  : outcome (option (list N)) :=
  match room with
  | O => Done (Some dk)
  | _ =>
    match fuel with
    | O => UB
    | S fuel =>
        obind (pbkdf2_f p password salt salt_size count hlen i) (fun r =>
        match r with
        | None => Done None
        | Some temp => let n := Nat.min room hlen in
            pbkdf2_loop fuel p password salt salt_size count hlen (room - n) ((i + 1) mod 2 ^ 32) (dk ++ firstn n temp)
        end)
    end
  end.
(* src/kryptos_pbkdf2.c:27-93 kryptos_do_pbkdf2; newseg(0) taken to return a buffer *)
Definition do_pbkdf2 (p : hash_ptrs) (password salt : option (list N)) (salt_size count : N) (dklen : nat) : outcome (option (list N)) :=
  match h_size p with
  | None => Done None
  | Some hlen =>
      if (2 ^ 32 - 1) * N.of_nat hlen <? N.of_nat dklen then Done None
      else pbkdf2_loop dklen p password salt salt_size count hlen dklen 1 []
  end.

(* ------------------------------------------------------------------ HOTP *)
(* src/kryptos_hotp.c:29-84 kryptos_hotp_init: the result it returns. Pointer arguments are optional values. *)
Definition hotp_init (task : bool) (act : action) (secret : option (list N)) (moving throttling resync digits : option N) (p : hash_ptrs) : result :=
  match task, secret, moving, digits, h_fn p, h_input_size p, h_size p with
  | true, Some (_ :: _), Some _, Some d, Some _, Some _, Some hs =>
      if (d =? 0) || (9 <? d) then InvalidParams
      else match act with
           | GenerateToken => if Nat.ltb hs 15 then InvalidParams else Success
           | ValidateToken =>
               if Nat.ltb hs 15 then InvalidParams
               else match throttling, resync with
                    | Some th, Some _ => if th =? 0 then InvalidParams else Success
                    | _, _ => InvalidParams
                    end
           | _ => InvalidParams
           end
  | _, _, _, _, _, _, _ => InvalidParams
  end.
(* the task after a successful init: its fixed parameters ... *)
Record otp := mkOtp { otp_action : action; otp_key : list N; otp_resync : N; otp_digits : N; otp_hash : hash_ptrs }.
(* ... and what changes: *moving_factor, *throttling_param, result, out *)
Record otp_state := mkOS { os_c : N; os_t : N; os_result : result; os_out : option (list N) }.

(* src/kryptos_hotp.c:199-231 kryptos_hotp_trunc. buf is the whole buffer behind in, which is longer than in_size here *)
Definition hotp_trunc (buf : list N) (in_size : nat) (d : N) : outcome N :=
  if Nat.eqb in_size 0 then Done 0
  else obind (rd buf (N.of_nat (in_size - 1))) (fun last =>
       let s := and last 0xF in
       obind (rd buf s) (fun b0 => obind (rd buf (s + 1)) (fun b1 => obind (rd buf (s + 2)) (fun b2 => obind (rd buf (s + 3)) (fun b3 =>
       obind (rd [1; 10; 100; 1000; 10000; 100000; 1000000; 10000000; 100000000; 1000000000] d) (fun m =>
       Done (or (or (or (shl32 (and b0 0x7F) 24) (shl32 b1 16)) (shl32 b2 8)) b3 mod m))))))).
(* src/kryptos_hotp.c:110-197 kryptos_do_hotp; token is the buffer in, the machine is little-endian (memcpy and memcmp of the u32 token) *)
Definition do_hotp (o : otp) (token : list N) (s : otp_state) : outcome otp_state :=
  if (action_beq (otp_action o) ValidateToken && (os_t s =? 0))%bool then Done (mkOS (os_c s) (os_t s) InvalidToken (os_out s))
  else
    let c := os_c s in
    let m := [and (shr c 56) 0xFF; and (shr c 48) 0xFF; and (shr c 40) 0xFF; and (shr c 32) 0xFF;
              and (shr c 24) 0xFF; and (shr c 16) 0xFF; and (shr c 8) 0xFF; and c 0xFF] in
    obind (hmac_call (otp_hash o) (otp_key o) m) (fun t =>
    match mt_result t, mt_out t, h_size (otp_hash o) with
    | Success, Some out, Some hs =>
        obind (hotp_trunc out hs (otp_digits o)) (fun tk =>
        match otp_action o with
        | GenerateToken => Done (mkOS c (os_t s) Success (Some (le_bytes 4 tk)))
        | ValidateToken =>
            if eqb_list (le_bytes 4 tk) token then Done (mkOS c (os_t s) Success (os_out s))
            else Done (mkOS c (os_t s - 1) InvalidToken (os_out s))
        | _ => Done (mkOS c (os_t s) Success (os_out s))
        end)
    | r, _, _ => Done (mkOS c (os_t s) r (os_out s))
    end).
Definition bump (s : otp_state) : otp_state := mkOS ((os_c s + 1) mod 2 ^ 64) (os_t s) (os_result s) (os_out s).
(* src/kryptos_hotp.c:97-101: the resynchronisation loop *)
Fixpoint hotp_resync (n : nat) (o : otp) (token : list N) (s : otp_state) : outcome otp_state :=
  match n with
  | O => Done s
  | S n => if result_beq (os_result s) Success then Done s
           else obind (do_hotp o token (bump s)) (fun s => hotp_resync n o token s)
  end.
(* src/kryptos_hotp.c:86-108 kryptos_hotp *)
Definition kryptos_hotp (o : otp) (token : list N) (s : otp_state) : outcome otp_state :=
  obind (do_hotp o token s) (fun s =>
  if result_beq (os_result s) Success then Done (bump s)
  else if (result_beq (os_result s) InvalidToken && action_beq (otp_action o) ValidateToken && (0 <? os_t s))%bool
  then obind (hotp_resync (N.to_nat (otp_resync o)) o token s) (fun s =>
       if result_beq (os_result s) Success then Done (bump s) else Done s)
  else Done s).
(* a history of validations on one task *)
Fixpoint hotp_history (o : otp) (tokens : list (list N)) (s : otp_state) : outcome (list (result * N)) :=
  match tokens with
  | [] => Done []
  | tk :: tokens => obind (kryptos_hotp o tk s) (fun s' =>
      obind (hotp_history o tokens s') (fun rs => Done ((os_result s', os_c s') :: rs)))
  end.

(* ------------------------------------------------------------------ TOTP *)
(* src/kryptos_totp.c:90-140 kryptos_totp on a task set up by kryptos_totp_init (49-88); now is the value of time(), t0 and x are
   *initial_counter_time and *time_step. ntry as in the code. UB: division by zero. *)
Fixpoint totp_loop (ntry : nat) (o : otp) (token : list N) (t0 x ts : N) (s : otp_state) : outcome otp_state :=
  match ntry with
  | O => Done s
  | S n =>
      let c := if Nat.ltb 1 ntry then (ts + 2 ^ 64 - t0) mod 2 ^ 64 else (ts + t0) mod 2 ^ 64 in
      if x =? 0 then UB
      else obind (kryptos_hotp (mkOtp (otp_action o) (otp_key o) 1 (otp_digits o) (otp_hash o)) token (mkOS (c / x) 1 (os_result s) (os_out s))) (fun s =>
           if (negb (result_beq (os_result s) Success) && action_beq (otp_action o) ValidateToken)%bool
           then if x <? ts then (if x <? ts - x then totp_loop n o token t0 x (ts - x) s else Done s) else Done s
           else Done s)
  end.
Definition kryptos_totp (o : otp) (token : list N) (t0 x now : N) : outcome (result * option (list N)) :=
  obind (totp_loop 3 o token t0 x now (mkOS 0 1 Success None)) (fun s => Done (os_result s, os_out s)).
