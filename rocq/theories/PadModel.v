(* Model of the OAEP and PSS paddings of src/kryptos_padding.c and of the RSA functions that use them. Hash functions are pointers as in
   MacModel.v; a byte buffer and its size agree; sizes are below 2^62, so a negative (long) size is a truncated subtraction here; random
   blocks are arguments. Failed allocations are left out, except that malloc0 tells whether malloc(0) is a pointer (glibc) or NULL. *)
From Verif Require Import Words TaskModel CipherBase HashModel MacModel EncSpec MpModel MpModel2 PemModel RsaModel.
Open Scope N_scope.

(* src/kryptos_padding.c:139-148 kryptos_oaep_i2osp *)
Definition i2osp (c : N) : list N := [shr c 24; and (shr c 16) 0xFF; and (shr c 8) 0xFF; and c 0xFF].
(* src/kryptos_padding.c:99-120: the loop of kryptos_padding_mgf; out is what has been written. A digest of no bytes would loop for ever
   (UB: the fuel is used up). *)
Fixpoint mgf_loop (fuel : nat) (fn : list N -> outcome (list N)) (seed : list N) (len : nat) (counter : N) (out : list N) : outcome (list N) :=
  if Nat.ltb (length out) len then
    match fuel with
    | O => UB
    | S fuel => obind (fn (seed ++ i2osp counter)) (fun d => mgf_loop fuel fn seed len (add32 counter 1) (out ++ firstn (len - length out) d))
    end
  else Done out.
(* src/kryptos_padding.c:57-137 kryptos_padding_mgf, seed and hash not NULL *)
Definition padding_mgf (fn : list N -> outcome (list N)) (seed : list N) (len : nat) : outcome (list N) := mgf_loop len fn seed len 0 [].

(* src/kryptos_padding.c:165-183, 355-391: OAEP replaces the two pointers by those of SHA-1 if one of them is NULL *)
Definition oaep_hash (p : hash_ptrs) : (list N -> outcome (list N)) * nat :=
  match h_fn p, h_size p with Some f, Some s => (f, s) | _, _ => (hash_fn sha1, 20%nat) end.
(* src/kryptos_padding.c:519-537, 756-773: PSS replaces each of them alone *)
Definition pss_hash (p : hash_ptrs) : (list N -> outcome (list N)) * nat :=
  (match h_fn p with Some f => f | None => hash_fn sha1 end, match h_size p with Some s => s | None => 20%nat end).

(* src/kryptos_padding.c:160-346 kryptos_apply_oaep_padding: the padded block, or None for NULL; seed is the random block. UB: a digest
   that has not the size the other pointer tells (line 232 copies as many bytes as it has). *)
Definition apply_oaep (malloc0 : bool) (p : hash_ptrs) (buffer : option (list N)) (k : nat) (label : option (list N)) (seed : list N) : outcome (option (list N)) :=
  match buffer with
  | None | Some [] => Done None
  | Some m =>
      let '(fn, h) := oaep_hash p in
      if Nat.ltb k (length m) then Done None
      else if Nat.ltb k h then Done None
      else if Nat.ltb k (length m + 2 * h + 2) then Done None
      else
        let ps := (k - length m - 2 * h - 2)%nat in
        if (negb malloc0 && Nat.eqb ps 0)%bool then Done None
        else
          obind (fn (match label with Some l => l | None => [] end)) (fun lhash =>
          if negb (Nat.eqb (length lhash) h) then UB
          else
            let db := lhash ++ repeat 0 ps ++ [0x01] ++ m in
            obind (padding_mgf fn seed (k - h - 1)) (fun dbmask =>
            let db := xorl db dbmask in
            obind (padding_mgf fn db h) (fun seedmask =>
            Done (Some (0x00 :: xorl seed seedmask ++ db)))))
  end.

(* src/kryptos_padding.c:452-457: how many zero bytes l begins with *)
Fixpoint zero_run (l : list N) : nat :=
  match l with x :: l => if x =? 0 then S (zero_run l) else 0%nat | [] => 0%nat end.
(* src/kryptos_padding.c:348-511 kryptos_drop_oaep_padding. UB: reads outside of the copy of the buffer (lines 401, 410, 426, 442) - for
   very short buffers the size given to malloc is close to 2^64 and the function fails instead -, and line 459, which reads the byte
   after the copy if there are only zeros behind the hash. *)
Definition drop_oaep (p : hash_ptrs) (buffer : option (list N)) (k : nat) (label : option (list N)) : outcome (option (list N)) :=
  match buffer with
  | None | Some [] => Done None
  | Some (b :: rest) =>
      if negb (b =? 0x00) then Done None
      else
        let buf := b :: rest in
        let '(fn, h) := oaep_hash p in
        if (Nat.ltb (length buf) (2 * h + 1) || Nat.ltb k (h + 1) || Nat.ltb (length buf) k)%bool then UB
        else
          obind (padding_mgf fn (firstn (k - h - 1) (skipn (h + 1) buf)) h) (fun seedmask =>
          let seed := xorl seedmask (firstn h (skipn 1 buf)) in
          obind (padding_mgf fn seed (length buf - h - 1)) (fun dbmask =>
          let dest := xorl (skipn (h + 1) buf) dbmask in
          obind (fn (match label with Some l => l | None => [] end)) (fun lhash =>
          if negb (Nat.eqb (length lhash) h) then Done None
          else if negb (eqb_list (firstn h dest) lhash) then Done None
          else
            let tail := skipn h dest in
            let ps_size := zero_run tail in
            match skipn ps_size tail with
            | [] => UB
            | x :: m =>
                if negb (x =? 0x01) then Done None
                else if negb (Nat.eqb (ps_size + length m + 2 * h + 2) k) then Done None
                else Done (Some m)
            end)))
  end.

(* src/kryptos_padding.c:513-746 kryptos_pss_encode: k is not used; salt is the random block, of salt_size bytes *)
Definition pss_encode (p : hash_ptrs) (buffer : option (list N)) (salt : list N) : outcome (option (list N)) :=
  match buffer with
  | None => Done None
  | Some m =>
      let '(fn, h) := pss_hash p in
      if Nat.ltb (length m) (h + length salt + 2) then Done None
      else
        obind (fn m) (fun mhash =>
        if negb (Nat.eqb (length mhash) h) then Done None
        else
          obind (fn (repeat 0 8 ++ mhash ++ salt)) (fun hh =>
          if negb (Nat.eqb (length hh) h) then Done None
          else
            let ps := (length m - length salt - h - 2)%nat in
            let db := repeat 0 ps ++ [0x01] ++ salt in
            obind (padding_mgf fn hh (length m - h - 1)) (fun dbmask =>
            let masked := xorl dbmask db in
            let masked := if Nat.ltb 0 ps then upd masked 0 0x00 else masked in
            Done (Some (masked ++ hh ++ [0xBC])))))
  end.
(* src/kryptos_padding.c:748-990 kryptos_pss_verify: is m returned? *)
Definition pss_verify (p : hash_ptrs) (m em : list N) (k salt_size : nat) : outcome bool :=
  if (Nat.eqb (length m) 0 || Nat.eqb (length em) 0 || Nat.eqb k 0)%bool then Done false
  else
    let '(fn, h) := pss_hash p in
    if Nat.ltb (length em) (h + salt_size + 2) then Done false
    else if negb (nth (length em - 1) em 0 =? 0xBC) then Done false
    else
      obind (fn m) (fun mhash =>
      if negb (Nat.eqb (length mhash) h) then Done false
      else
        let n := (length em - h - 1)%nat in
        let dbmask := firstn n em in
        let hh := firstn h (skipn n em) in
        let ps := (length em - salt_size - h - 2)%nat in
        if (Nat.ltb 0 ps && negb (nth 0 dbmask 0 =? 0x00))%bool then Done false
        else
          obind (padding_mgf fn hh n) (fun db =>
          let db := xorl db dbmask in
          let db := if Nat.ltb 0 ps then upd db 0 0x00 else db in
          if negb (nth ps db 0 =? 0x01) then Done false
          else if negb (forallb (fun x => x =? 0x00) (firstn ps db)) then Done false
          else
            obind (fn (repeat 0 8 ++ mhash ++ skipn (length db - salt_size) db)) (fun h' =>
            if negb (Nat.eqb (length h') h) then Done false else Done (eqb_list hh h')))).

(* src/kryptos_rsa.c:259-345 kryptos_rsa_oaep_cipher, encrypting, after the checks of lines 269-285 *)
Definition rsa_oaep_encrypt (malloc0 : bool) (p : hash_ptrs) (label : option (list N)) (seed key inp : list N) : outcome (result * option (list N)) :=
  obind (pem_get_mp hdr_n (Some key)) (fun n =>
  match n with
  | None => Done (InvalidParams, None)
  | Some n =>
      obind (apply_oaep malloc0 p (Some inp) (8 * size n) label seed) (fun em =>
      match em with None => Done (ProcessError, None) | Some em => rsa_encrypt key em end)
  end).
(* the same, decrypting *)
Definition rsa_oaep_decrypt (p : hash_ptrs) (label : option (list N)) (key inp : list N) : outcome (result * option (list N)) :=
  obind (pem_get_mp hdr_n (Some key)) (fun n =>
  match n with
  | None => Done (InvalidParams, None)
  | Some n =>
      obind (rsa_decrypt key inp) (fun r =>
      match r with
      | (Success, Some em) =>
          obind (drop_oaep p (Some em) (8 * size n) label) (fun m =>
          match m with None => Done (ProcessError, None) | Some m => Done (Success, Some m) end)
      | _ => Done r
      end)
  end).
(* src/kryptos_rsa.c:558-584: the message with zeros up to a multiple of eight bytes *)
Definition pad_digits (l : list N) : list N := l ++ repeat 0 ((8 - length l mod 8) mod 8).
(* src/kryptos_rsa.c:529-715 kryptos_rsa_sign with the PSS encoding *)
Definition rsa_pss_sign (p : hash_ptrs) (salt key inp : list N) : outcome (result * option (list N)) :=
  fetch hdr_d key (fun d => fetch hdr_n key (fun n =>
  obind (pss_encode p (Some (pad_digits inp)) salt) (fun em =>
  match em with
  | None => Done (InvalidParams, None)
  | Some em =>
      if Nat.ltb (8 * size n) (length em) then Done (InvalidParams, None)
      else
        match raw_buffer_as_mp em, raw_buffer_as_mp (pad_digits inp) with
        | Some x, Some x' => obind (me_mod_n x d n) (fun s => Done (put2 hdr_x x' hdr_s s))
        | _, _ => Done (ProcessError, None)
        end
  end))).
(* src/kryptos_rsa.c:717-849 kryptos_rsa_verify with the PSS decoding *)
Definition rsa_pss_verify (p : hash_ptrs) (salt_size : nat) (key inp : list N) : outcome (result * option (list N)) :=
  fetch hdr_x inp (fun x => fetch hdr_s inp (fun s => fetch hdr_e key (fun e => fetch hdr_n key (fun n =>
  obind (me_mod_n s e n) (fun xp =>
  obind (pss_verify p (as_task_out x) (as_task_out xp) (8 * (8 * size n)) salt_size) (fun ok =>
  if ok then Done (Success, Some (as_task_out x)) else Done (InvalidSignature, None))))))).
