(* Model of src/kryptos_rsa.c (plain RSA; the task checks are in TaskModel, the paddings are separate). Buffers are byte lists, failed
   allocations are left out. Random bytes come from a list, loops take a fuel; "None" inside an outcome: the fuel or the bytes are used
   up. *)
From Verif Require Import Words TaskModel EncSpec MpModel MpModel2 PemModel.
From Coq Require Import String.
Open Scope N_scope.

(* src/kryptos_rsa.h:13-23 *)
Definition hdr_n := codes "RSA PARAM N".
Definition hdr_e := codes "RSA PARAM E".
Definition hdr_d := codes "RSA PARAM D".
Definition hdr_c := codes "RSA PARAM C".
Definition hdr_x := codes "RSA PARAM X".
Definition hdr_s := codes "RSA PARAM S".

(* src/kryptos_rsa.c:186-198: digits 0, 1, ... of four random bytes each; the sum is an int, so a first byte above 127 makes it negative
   and the assignment extends the sign (the shift is then undefined in strict C) *)
Definition sext32 (x : N) : N := if x <? 2 ^ 31 then x else 2 ^ 64 - 2 ^ 32 + x.
Fixpoint draw_digits (n : nat) (rs : list N) : option (list N * list N) :=
  match n with
  | O => Some ([], rs)
  | S n =>
      match rs with
      | a :: b :: c :: d :: rs => match draw_digits n rs with Some (ds, rs) => Some (sext32 (be_val [a; b; c; d]) :: ds, rs) | None => None end
      | _ => None
      end
  end.
(* src/kryptos_rsa.c:172-221 kryptos_rsa_eval_e; gf is the fuel of the gcd *)
Fixpoint rsa_eval_e (gf fuel : nat) (phi : mp) (rs : list N) : outcome (option mp) :=
  match fuel with
  | O => Done None
  | S fuel =>
      match draw_digits (size phi) rs with
      | None => Done None
      | Some (ds, rs) =>
          let e := mkMp false ds in
          if mp_ge e phi then rsa_eval_e gf fuel phi rs
          else obind (gcd gf e phi) (fun g => match g with None => Done None | Some g => if mp_ne g (num 1) then rsa_eval_e gf fuel phi rs else Done (Some e) end)
      end
  end.
Definition put2 (h1 : list N) (a : mp) (h2 : list N) (b : mp) : result * option (list N) :=
  match pem_put_mp None h1 a with (Success, p) => pem_put_mp p h2 b | r => r end.
(* src/kryptos_rsa.c:27-170 kryptos_rsa_mk_key_pair for two primes p and q that kryptos_mp_gen_prime has returned: the public and the
   private key *)
Definition rsa_key_pair (fuel : nat) (p q : mp) (rs : list N) : outcome (option (list N * list N)) :=
  let n := mp_mul (Some (assign None p)) q in
  obind (mp_sub (Some (assign None p)) (num 1)) (fun t =>
  let phi := assign None t in
  obind (mp_sub (Some (assign (Some t) q)) (num 1)) (fun t =>
  let phi := mp_mul (Some phi) t in
  obind (rsa_eval_e fuel fuel phi rs) (fun e =>
  match e with
  | None => Done None
  | Some e =>
      obind (modinv fuel e phi) (fun d =>
      match d with
      | None => Done None
      | Some d =>
          match put2 hdr_n n hdr_e e, put2 hdr_n n hdr_d d with
          | (Success, Some k_pub), (Success, Some k_priv) => Done (Some (k_pub, k_priv))
          | _, _ => Done None (* not reachable *)
          end
      end)
  end))).

(* a number of a PEM buffer, or the result of the task *)
Definition fetch (h buf : list N) (k : mp -> outcome (result * option (list N))) : outcome (result * option (list N)) :=
  obind (pem_get_mp h (Some buf)) (fun a => match a with Some a => k a | None => Done (ProcessError, None) end).
(* src/kryptos_rsa.c:347-406 kryptos_rsa_encrypt, after the check of lines 243-247: result and output *)
Definition rsa_encrypt (key inp : list N) : outcome (result * option (list N)) :=
  fetch hdr_n key (fun n =>
  if Nat.ltb (8 * size n) (List.length inp) then Done (InvalidParams, None)
  else
    fetch hdr_e key (fun e =>
    match raw_buffer_as_mp inp with
    | None => Done (InvalidParams, None)
    | Some m => obind (me_mod_n m e n) (fun c => Done (pem_put_mp None hdr_c c))
    end)).
(* src/kryptos_rsa.c:408-465 kryptos_rsa_decrypt *)
Definition rsa_decrypt (key inp : list N) : outcome (result * option (list N)) :=
  fetch hdr_n key (fun n => fetch hdr_d key (fun d => fetch hdr_c inp (fun c => obind (me_mod_n c d n) (fun m => Done (Success, Some (as_task_out m)))))).
(* src/kryptos_rsa.c:529-715 kryptos_rsa_sign without the PSS encoding *)
Definition rsa_sign (key inp : list N) : outcome (result * option (list N)) :=
  fetch hdr_d key (fun d => fetch hdr_n key (fun n =>
  if Nat.ltb (8 * size n) (List.length inp) then Done (InvalidParams, None)
  else
    match raw_buffer_as_mp inp with
    | None => Done (ProcessError, None)
    | Some x => obind (me_mod_n x d n) (fun s => Done (put2 hdr_x x hdr_s s))
    end)).
(* src/kryptos_rsa.c:717-849 kryptos_rsa_verify without the PSS decoding: on success the output is a copy of x *)
Definition rsa_verify (key inp : list N) : outcome (result * option (list N)) :=
  fetch hdr_x inp (fun x => fetch hdr_s inp (fun s => fetch hdr_e key (fun e => fetch hdr_n key (fun n =>
  obind (me_mod_n s e n) (fun xp => if mp_ne x xp then Done (InvalidSignature, None) else Done (Success, Some (as_task_out x))))))).
