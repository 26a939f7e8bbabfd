(* Padding, block cipher modes of operation, GCM, and the block cipher task processor. *)
From Verif Require Import Words TaskModel.
Open Scope N_scope.

(* ------------------------------------------------------------- ANSI X9.23 *)

(* src/kryptos_padding.c:37-39: while ((padded_size % block_size) != 0) padded_size++ ;
   at most block_size - 1 increments are needed, so fuel = block_size is enough *)
Fixpoint pad_round (fuel bs p : nat) : nat :=
  match fuel with
  | O => p
  | S f => if Nat.eqb (p mod bs) 0 then p else pad_round f bs (S p)
  end.

(* src/kryptos_padding.c:30-39 *)
Definition padded_size (bs n : nat) : nat :=
  pad_round bs bs (if Nat.eqb (n mod bs) 0 then S n else n).

(* src/kryptos_padding.c:18-55 kryptos_ansi_x923_padding. rnd is the stream of bytes returned by
   kryptos_get_random_byte, used only when randomize is set. None is the NULL return (lines 25-27). *)
Definition x923_pad (bs : nat) (randomize : bool) (rnd : nat -> N) (l : list N) : option (list N) :=
  match bs, l with
  | O, _ => None
  | _, [] => None
  | _, _ =>
      let k := (padded_size bs (length l) - length l)%nat in
      Some (l ++ (if randomize then map rnd (seq 0 (k - 1)) else repeat 0 (k - 1))
              ++ [N.of_nat k mod 256])
  end.

(* -------------------------------------------------------------- the modes *)

(* src/kryptos_block_parser.c:10-37 and the loops of src/kryptos.h:367-382, 434-444, 488-503,
   531-537. The next block of block_size bytes is copied out of the input and one output block is
   stored. A final block shorter than block_size makes the memcpy of a whole block write past the
   end of the output buffer: UB. *)
Fixpoint blocks_loop {S} (step : S -> list N -> S * list N) (bs fuel : nat) (s : S) (l : list N)
  : outcome (S * list N) :=
  match fuel with
  | O => Done (s, [])
  | Datatypes.S f =>
      match l with
      | [] => Done (s, [])
      | _ =>
          if Nat.ltb (length l) bs then UB
          else
            let '(s', o) := step s (firstn bs l) in
            obind (blocks_loop step bs f s' (skipn bs l)) (fun '(s'', os) => Done (s'', o ++ os))
      end
  end.
Definition run_blocks {S} (step : S -> list N -> S * list N) (bs : nat) (s : S) (l : list N) :=
  blocks_loop step bs (length l) s l.

(* src/kryptos_iv_utils.c:44-58 kryptos_iv_inc_u32: the last four bytes of the block as a
   big-endian 32-bit counter *)
Definition iv_inc_u32 (iv : list N) : list N :=
  let n := (length iv - 4)%nat in
  let c := N.lor (N.lor (N.lor (N.shiftl (nth n iv 0) 24) (N.shiftl (nth (n + 1) iv 0) 16))
                        (N.shiftl (nth (n + 2) iv 0) 8)) (nth (n + 3) iv 0) in
  let u := addw 32 c 1 in
  firstn n iv ++ [N.land (N.shiftr u 24) 255; N.land (N.shiftr (N.land u 0xFF0000) 16) 255;
                  N.land (N.shiftr (N.land u 0xFF00) 8) 255; N.land u 255].

(* src/kryptos.h:383-388: the value stored in *ctr *)
Definition ctr_of_block (iv : list N) : N :=
  let n := (length iv - 4)%nat in
  N.lor (N.lor (N.lor (N.shiftl (nth n iv 0) 24) (N.shiftl (nth (n + 1) iv 0) 16))
               (N.shiftl (nth (n + 2) iv 0) 8)) (nth (n + 3) iv 0).

(* src/kryptos_iv_utils.c:10-26 kryptos_apply_iv is [xorl] *)

(* one iteration of each loop; f is the selected block function *)
(* src/kryptos.h:531-537 *)
Definition ecb_step (f : list N -> list N) (_ : unit) (b : list N) : unit * list N := (tt, f b).
(* src/kryptos.h:485-503 by action: only Encrypt xors the input with iv, only Decrypt xors the
   output; the iv becomes the output block (Encrypt) or the input block *)
Definition cbc_step (a : action) (f : list N -> list N) (iv b : list N) : list N * list N :=
  match a with
  | Encrypt => let o := f (xorl b iv) in (o, o)
  | Decrypt => (b, xorl (f b) iv)
  | _ => (b, f b)
  end.
(* src/kryptos.h:433-444 *)
Definition ofb_step (f : list N -> list N) (iv b : list N) : list N * list N :=
  let ks := f iv in (ks, xorl b ks).
(* src/kryptos.h:365-382 *)
Definition ctr_step (f : list N -> list N) (ctr b : list N) : list N * list N :=
  (iv_inc_u32 ctr, xorl b (f ctr)).

(* What one processing leaves in the task: the allocated output buffer, out_size, and the value
   written through ctr (CTR and GCM only). *)
Record produced := { p_out : list N; p_out_size : N; p_ctr : option N }.

(* src/kryptos.h:393-395, 445-447, 504-506, 538-540: the pad length is the last byte, out_size is
   computed in size_t and the last byte is zeroed. An empty output buffer makes the code read
   out[-1]: UB. *)
Definition drop_pad (out : list N) (ctr : option N) : outcome produced :=
  match rev out with
  | [] => UB
  | k :: _ =>
      Done {| p_out := removelast out ++ [0];
              p_out_size := (N.of_nat (length out) + W64 - k) mod W64;
              p_ctr := ctr |}
  end.

Section Modes.
  Variable bs : nat.                      (* block size in bytes *)
  Variable enc dec : list N -> list N.    (* block functions with the key schedule applied *)
  Variable rnd : nat -> N.                (* random padding bytes *)

  (* src/kryptos_types.h:590-599: block function selected from action and mode *)
  Definition select (a : action) (m : cmode) : list N -> list N :=
    match a, m with
    | Encrypt, _ => enc
    | _, OFB | _, CTR | _, GCM => enc
    | _, _ => dec
    end.

  (* the two states and outputs of the iv based modes *)
  Definition mode_blocks (a : action) (m : cmode) (iv l : list N) : outcome (list N * list N) :=
    let f := select a m in
    match m with
    | ECB => obind (run_blocks (ecb_step f) bs tt l) (fun '(_, o) => Done ([], o))
    | CBC => run_blocks (cbc_step a f) bs iv l
    | OFB => run_blocks (ofb_step f) bs iv l
    | _ => run_blocks (ctr_step f) bs iv l
    end.

  Definition final_ctr (m : cmode) (s : list N) : option N :=
    match m with CTR | GCM => Some (ctr_of_block s) | _ => None end.

  (* src/kryptos.h:261-301 kryptos_meta_block_processing and the four mode macros (327-399,
     401-452, 454-511, 513-545). None: no output buffer (out == NULL), which is what happens when
     the input of a decryption is shorter than the iv and the wrapped size cannot be allocated. *)
  Definition meta_block_processing (a : action) (m : cmode) (iv inp : list N)
    : option (outcome produced) :=
    match m with
    | ModeNr => None
    | _ =>
      match a with
      | Encrypt | EncryptWithoutRandomPad =>
          match x923_pad bs (match a with Encrypt => true | _ => false end) rnd inp with
          | None => None
          | Some p =>
              Some (obind (mode_blocks a m iv p) (fun '(s, o) =>
                let out := match m with ECB => o | _ => iv ++ o end in
                Done {| p_out := out; p_out_size := N.of_nat (length out);
                        p_ctr := final_ctr m s |}))
          end
      | _ =>
          match m with
          | ECB => Some (obind (mode_blocks a m iv inp) (fun '(s, o) => drop_pad o None))
          | _ =>
              if Nat.ltb (length inp) bs then None
              else Some (obind (mode_blocks a m (firstn bs inp) (skipn bs inp)) (fun '(s, o) =>
                           drop_pad o (final_ctr m s)))
          end
      end
    end.
End Modes.

(* ------------------------------------------------------------------- GCM *)

(* kryptos_u32_t[4] *)
Definition quad := (N * N * N * N)%type.
Definition qxor (a b : quad) : quad :=
  let '(a0, a1, a2, a3) := a in let '(b0, b1, b2, b3) := b in
  (N.lxor a0 b0, N.lxor a1 b1, N.lxor a2 b2, N.lxor a3 b3).

(* src/kryptos_gcm_utils.c:111-116 kryptos_gcm_lsh128 *)
Definition lsh128 (b : quad) : quad :=
  let '(b0, b1, b2, b3) := b in
  (N.lor (shlw 32 b0 1) (N.shiftr b1 31), N.lor (shlw 32 b1 1) (N.shiftr b2 31),
   N.lor (shlw 32 b2 1) (N.shiftr b3 31), shlw 32 b3 1).
(* src/kryptos_gcm_utils.c:118-123 kryptos_gcm_rsh128 *)
Definition rsh128 (b : quad) : quad :=
  let '(b0, b1, b2, b3) := b in
  (N.shiftr b0 1, N.lor (shlw 32 b0 31) (N.shiftr b1 1),
   N.lor (shlw 32 b1 31) (N.shiftr b2 1), N.lor (shlw 32 b2 31) (N.shiftr b3 1)).

(* src/kryptos_gcm_utils.c:125-141: one iteration on (zz, v, t) *)
Definition gf_step (s : quad * quad * quad) : quad * quad * quad :=
  let '(zz, v, t) := s in
  let '(t0, t1, t2, t3) := t in
  let zz' := if N.shiftr t0 31 =? 0 then zz else qxor zz v in
  let '(v0, v1, v2, v3) := v in
  let v' := if N.land v3 1 =? 0 then rsh128 v else qxor (rsh128 v) (0xE1000000, 0, 0, 0) in
  (zz', v', lsh128 t).
(* src/kryptos_gcm_utils.c:103-150 kryptos_gcm_gf_mul *)
Definition gf_mul (x y : quad) : quad :=
  let '(zz, _, _) := Nat.iter 128 gf_step ((0, 0, 0, 0), y, x) in zz.

(* src/kryptos_endianness_utils.c:22-39 kryptos_get_u32_as_big_endian on four available bytes *)
Definition get_u32_be (l : list N) (i : nat) : N :=
  N.lor (N.lor (N.lor (N.shiftl (nth i l 0) 24) (N.shiftl (nth (i + 1) l 0) 16))
               (N.shiftl (nth (i + 2) l 0) 8)) (nth (i + 3) l 0).
(* src/kryptos_endianness_utils.c:45-60 kryptos_cpy_u32_as_big_endian *)
Definition put_u32_be (x : N) : list N :=
  [N.land (N.shiftr x 24) 255; N.land (N.shiftr x 16) 255; N.land (N.shiftr x 8) 255; N.land x 255].

Definition quad_of (l : list N) : quad :=
  (get_u32_be l 0, get_u32_be l 4, get_u32_be l 8, get_u32_be l 12).
Definition bytes_of_quad (q : quad) : list N :=
  let '(a, b, c, d) := q in put_u32_be a ++ put_u32_be b ++ put_u32_be c ++ put_u32_be d.

(* src/kryptos_gcm_utils.c:285-307, 314-338: zero padding to a multiple of 16, then 16-byte blocks *)
Definition zpad16 (l : list N) : list N := l ++ repeat 0 ((16 - length l mod 16) mod 16).
Definition quads (l : list N) : list quad := map quad_of (chunks 16 (zpad16 l)).

(* src/kryptos_gcm_utils.c:365-371: the length block; both low words are masked with 0xFFFFFF *)
Definition len_block (a_size c_size : N) : quad :=
  let l0 := (N.shiftl a_size 3) mod W64 in
  let l1 := (N.shiftl c_size 3) mod W64 in
  (N.shiftr l0 32, N.land l0 0xFFFFFF, N.shiftr l1 32, N.land l1 0xFFFFFF).

(* src/kryptos_gcm_utils.c:225-459 kryptos_gcm_ghash (allocations succeed) *)
Definition ghash (h a c : list N) : list N :=
  let H := quad_of h in
  bytes_of_quad
    (fold_left (fun X B => gf_mul (qxor X B) H)
       (quads a ++ quads c ++ [len_block (N.of_nat (length a)) (N.of_nat (length c))])
       (0, 0, 0, 0)).

(* How a cipher provides the function E used for the GCM tag *)
Inductive gcm_kind := GcmStandard | GcmCustom | GcmNoSupport.

Section Gcm.
  Variable bs : nat.
  Variable enc dec : list N -> list N.
  Variable rnd : nat -> N.
  Variable kind : gcm_kind.

  (* src/kryptos_types.h:462-495 (standard: ECB with action Encrypt) and 518-550 (custom: ECB with
     action EncryptWithoutRandomPad). The task check of the inner ECB task passes whenever the outer
     one passed. The output is the padded (two block) encryption; h_size is set to 16. *)
  Definition gcm_e (x : list N) : outcome (list N) :=
    match kind with
    | GcmNoSupport => Done []
    | GcmStandard =>
        match meta_block_processing bs enc dec rnd Encrypt ECB [] x with
        | Some (Done p) => Done (firstn 16 (p_out p))
        | _ => UB
        end
    | GcmCustom =>
        match meta_block_processing bs enc dec rnd EncryptWithoutRandomPad ECB [] x with
        | Some (Done p) => Done (firstn 16 (p_out p))
        | _ => UB
        end
    end.

  (* src/kryptos_gcm_utils.c:152-223 kryptos_gcm_tag; c starts with the iv. iv_size is 16 for every
     cipher with GCM support (checked by the task check), so the iv_size == 12 branch is dead. Fewer
     than 16 bytes of c are read out of bounds: UB. *)
  Definition gcm_tag (c a : list N) : outcome (list N) :=
    if Nat.ltb (length c) 16 then UB
    else
      obind (gcm_e (repeat 0 16)) (fun H =>
      obind (gcm_e (ghash H [] (firstn 16 c))) (fun ey0 =>
        Done (xorl (ghash H a (skipn 16 c)) ey0))).

  (* src/kryptos_gcm_utils.c:40-66 kryptos_gcm_auth *)
  Definition gcm_auth (c a : list N) : outcome (list N) :=
    obind (gcm_tag c a) (fun tag => Done (tag ++ c)).

  (* src/kryptos_gcm_utils.c:68-101 kryptos_gcm_verify *)
  Definition gcm_verify (c a : list N) : outcome (result * list N) :=
    if Nat.ltb (length c) 16 then Done (ProcessError, c)
    else
      obind (gcm_tag (skipn 16 c) a) (fun tag =>
        if eqb_list tag (firstn 16 c) then Done (Success, skipn 16 c) else Done (GMACError, c)).
End Gcm.

(* ----------------------------------------------------- the task processor *)

(* A block cipher: block size, block functions of the key, GCM support *)
Record blockcipher := {
  bc_id : cipher_id;
  bc_bs : nat;
  bc_check : list N -> outcome result;  (* the rejections of the key expansion statement, else
                                           Success; UB when the expansion leaves its arrays *)
  bc_enc : list N -> list N -> list N;
  bc_dec : list N -> list N -> list N;
  bc_gcm : gcm_kind
}.

(* what the caller sees after kryptos_<cipher>_cipher(&task) *)
Record run := { r_result : result; r_out : option produced; r_iv : list N }.

Definition iv_bytes (t : task) : list N := match t_iv t with Some i => i | None => [] end.
Definition in_bytes (t : task) : list N := match t_in t with Some i => i | None => [] end.

(* src/kryptos.h:307-311: with no output, results other than these become kKryptosProcessError *)
Definition epilogue_code (r : result) : result :=
  match r with KeyError | GMACError | NoSupport => r | _ => ProcessError end.

(* src/kryptos_types.h:565-648 KRYPTOS_IMPL_BLOCK_CIPHER_PROCESSOR (user mode), with the epilogue
   src/kryptos.h:303-325. Sizes agree with the buffers. aad = aux_buffers.buf1 (empty when NULL).
   rnd: padding bytes; rnd2, rnd3: padding bytes drawn by the two inner ECB encryptions of GCM,
   which do not influence the result and are taken equal to rnd. After a mode with iv the iv
   buffer is zeroed. *)
Definition block_cipher (c : blockcipher) (pem_has : pk_param -> list N -> bool)
           (rnd : nat -> N) (aad : list N) (t : task) : outcome run :=
  match task_check pem_has t with
  | Success =>
      let key := key_bytes t in
      obind (bc_check c key) (fun chk => match chk with
      | Success =>
      let bs := bc_bs c in
      let enc := bc_enc c key in
      let dec := bc_dec c key in
      let zero_iv := match t_mode t with ECB => iv_bytes t | _ => repeat 0 bs end in
      let process (inp : list N) : outcome run :=
        match meta_block_processing bs enc dec rnd (t_action t) (t_mode t) (iv_bytes t) inp with
        | None => Done {| r_result := ProcessError; r_out := None; r_iv := iv_bytes t |}
        | Some o =>
            obind o (fun p =>
              match t_mode t, t_action t with
              | GCM, Encrypt =>
                  match bc_gcm c with
                  | GcmNoSupport => Done {| r_result := NoSupport; r_out := None; r_iv := zero_iv |}
                  | _ =>
                      obind (gcm_auth bs enc dec rnd (bc_gcm c) (p_out p) aad) (fun out =>
                        Done {| r_result := Success;
                                r_out := Some {| p_out := out;
                                                 p_out_size := N.of_nat (length out);
                                                 p_ctr := p_ctr p |};
                                r_iv := zero_iv |})
                  end
              | _, _ => Done {| r_result := Success; r_out := Some p; r_iv := zero_iv |}
              end)
        end in
      match t_mode t, t_action t with
      | GCM, Decrypt =>
          match bc_gcm c with
          | GcmNoSupport =>
              Done {| r_result := if Nat.ltb (length (in_bytes t)) 16 then ProcessError
                                  else NoSupport;
                      r_out := None; r_iv := iv_bytes t |}
          | _ =>
              obind (gcm_verify bs enc dec rnd (bc_gcm c) (in_bytes t) aad) (fun '(r, inp) =>
                match r with
                | Success => process inp
                | r => Done {| r_result := r; r_out := None; r_iv := iv_bytes t |}
                end)
          end
      | _, _ => process (in_bytes t)
      end
      | r => Done {| r_result := epilogue_code r; r_out := None; r_iv := iv_bytes t |}
      end)
  | r => Done {| r_result := r; r_out := None; r_iv := iv_bytes t |}
  end.

(* src/kryptos_types.h:364-388 and 404-430: kryptos_<cipher>_setup. newiv: the block returned by
   kryptos_get_random_block. *)
Definition put_ctr (bs : nat) (iv : list N) (c : N) : list N :=
  firstn (bs - 4) iv ++
  [N.land (N.shiftr c 24) 255; N.land (N.shiftr (N.land c 0xFF0000) 16) 255;
   N.land (N.shiftr (N.land c 0xFF00) 8) 255; N.land c 255].
Definition cipher_setup (c : blockcipher) (newiv : list N) (key : list N) (m : cmode)
           (ctr : option N) (t : task) : task :=
  let '(iv, ivs) :=
    match m, t_iv t with
    | CBC, None | OFB, None | CTR, None | GCM, None => (Some newiv, N.of_nat (bc_bs c))
    | _, _ => (t_iv t, t_iv_size t)
    end in
  let iv' := match m, ctr, iv with
             | CTR, Some v, Some i => Some (put_ctr (bc_bs c) i v)
             | _, _, _ => iv
             end in
  {| t_cipher := bc_id c; t_mode := m; t_action := t_action t; t_key := Some key;
     t_key_size := N.of_nat (length key); t_iv := iv'; t_iv_size := ivs;
     t_in := t_in t; t_in_size := t_in_size t; t_arg := t_arg t |}.
