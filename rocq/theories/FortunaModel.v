(* The Fortuna generator, src/kryptos_fortuna.c, and its use as the generator of the library, src/kryptos_random.c:99-157. *)
From Verif Require Import Words TaskModel ModeModel AesModel HashModel MacModel CipherBase.
Open Scope N_scope.

(* src/kryptos_fortuna.h:18-25 struct kryptos_fortuna_ctx; f_seed has seed_size bytes; K_size is 32 *)
Record fortuna := mkF { f_K : list N; f_C : N; f_calls : N; f_seed : list N }.
(* src/kryptos_fortuna.c:23-43 kryptos_fortuna_init (the allocation succeeds) *)
Definition fortuna_init : fortuna := mkF (repeat 0 32) 0 0 [].

(* src/kryptos_fortuna.c:56-106 kryptos_fortuna_reseed on a generator that is not NULL. sha256 stands for kryptos_sha256_hash on
   a task (MacModel.v hash_fn). The second memcpy (lines 82-83) takes seed_size bytes out of a digest of 32 bytes: UB when the
   seed is longer. *)
Definition reseed (f : fortuna) (seed : list N) : outcome fortuna :=
  obind (hash_fn sha256 (f_K f ++ seed)) (fun out =>
  let K := firstn 32 out in
  if Nat.ltb (length out) (length seed) then UB
  else obind (hash_fn sha256 (firstn 16 K ++ skipn 16 (f_K f) ++ firstn (length seed) out)) (fun out2 =>
  Done (mkF K (addw 32 (f_C f) 1) (f_calls f) out2))).

(* src/kryptos_fortuna.c:212-229: the task that makes one block. The action is EncryptWithoutRandomPad, the key is all of K. *)
Definition fortuna_task (K : list N) (c : N) : task :=
  mkTask AES128 ECB EncryptWithoutRandomPad (Some K) (N.of_nat (length K)) None 0
    (Some [and c 0xFF; and (shr (and c 0xFF00) 8) 0xFF; and (shr (and c 0xFF0000) 16) 0xFF; shr c 24]) 4 [].
(* None: the task failed *)
Definition fortuna_block (K : list N) (c : N) : outcome (option (list N)) :=
  obind (block_cipher aes128 (fun _ _ => false) (fun _ => 0) [] (fortuna_task K c)) (fun r =>
  match r_result r, r_out r with Success, Some p => Done (Some (p_out p)) | _, _ => Done None end).
(* src/kryptos_fortuna.c:213-240: the loop *)
Fixpoint fortuna_blocks (k : nat) (f : fortuna) : outcome (option (list N) * fortuna) :=
  match k with
  | O => Done (Some [], f)
  | S k' =>
      obind (fortuna_block (f_K f) (f_C f)) (fun b =>
      match b with
      | None => Done (None, f)
      | Some b =>
          obind (fortuna_blocks k' (mkF (f_K f) (addw 32 (f_C f) 1) (f_calls f) (f_seed f))) (fun '(o, f') =>
          Done (match o with Some l => Some (b ++ l) | None => None end, f'))
      end)
  end.
(* src/kryptos_fortuna.c:166-247 kryptos_fortuna_generate_blocks; sys is what kryptos_sys_get_random_block(32) returns if it is
   called. (A NULL generator is dereferenced in line 172 before it is tested in line 186: callers always pass one.) *)
Definition generate_blocks (sys : list N) (f : fortuna) (k : nat) : outcome (option (list N) * fortuna) :=
  let f := mkF (f_K f) (f_C f) (f_calls f + 1) (f_seed f) in
  obind (if f_C f =? 0 then reseed f sys else Done f) (fun f =>
  obind (if 0x40 <? f_calls f
         then obind (reseed f (f_seed f)) (fun f => Done (mkF (f_K f) (f_C f) 0 (f_seed f)))
         else Done f) (fun f =>
  fortuna_blocks k f)).
(* src/kryptos_fortuna.c:108-151 kryptos_fortuna_get_random_block *)
Definition get_random_block (sys sys2 : list N) (f : fortuna) (size : N) : outcome (option (list N) * fortuna) :=
  if (size =? 0) || (0x100000 <=? size) then Done (None, f)
  else
    obind (generate_blocks sys f (16 * N.to_nat size)) (fun '(t, f) =>
    match t with
    | None => Done (None, f)
    | Some t =>
        let r := firstn (N.to_nat size) t in
        obind (generate_blocks sys2 f 2) (fun '(t2, f) =>
        Done (Some r, match t2 with
                      | None => f
                      | Some t2 => mkF (firstn 32 t2) (f_C f) (f_calls f) (f_seed f)
                      end))
    end).
(* src/kryptos_fortuna.c:153-164 kryptos_fortuna_get_random_byte *)
Definition get_random_byte (sys sys2 : list N) (f : fortuna) : outcome (N * fortuna) :=
  obind (get_random_block sys sys2 f 16) (fun '(b, f) => Done (match b with Some l => nth 0 l 0 | None => 0 end, f)).

(* histories: the calls a user makes on one generator, with what they return *)
Inductive fortuna_call := Reseed (seed : list N) | GetBlock (size : N) | GetByte.
Inductive fortuna_answer := Reseeded | Block (b : option (list N)) | Byte (b : N).
Definition fortuna_step (sys sys2 : list N) (f : fortuna) (c : fortuna_call) : outcome (fortuna_answer * fortuna) :=
  match c with
  | Reseed s => obind (reseed f s) (fun f => Done (Reseeded, f))
  | GetBlock n => obind (get_random_block sys sys2 f n) (fun '(b, f) => Done (Block b, f))
  | GetByte => obind (get_random_byte sys sys2 f) (fun '(b, f) => Done (Byte b, f))
  end.
(* sys i: the blocks the system would hand out during the i-th call *)
Fixpoint fortuna_run (sys : nat -> list N * list N) (f : fortuna) (l : list fortuna_call) : outcome (list fortuna_answer * fortuna) :=
  match l with
  | [] => Done ([], f)
  | c :: l =>
      obind (fortuna_step (fst (sys O)) (snd (sys O)) f c) (fun '(a, f) =>
      obind (fortuna_run (fun i => sys (S i)) f l) (fun '(as_, f) => Done (a :: as_, f)))
  end.

(* src/kryptos_random.c:99-157 kryptos_set_csprng(kKryptosCSPRNGFortuna): four system bytes choose the size of the seed (read as
   a little endian word), the seed is that many system bytes, the first ones of more; the generator is initialised and reseeded. *)
Definition set_csprng_fortuna (sys4 more : list N) : outcome fortuna :=
  let n := (N.to_nat (le_val sys4 mod 31) + 1)%nat in
  reseed fortuna_init (firstn n more).
