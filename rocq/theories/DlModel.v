(* Model of the discrete logarithm algorithms: src/kryptos_dl_params.c, src/kryptos_elgamal.c, src/kryptos_dsa.c. Buffers are byte lists,
   failed allocations are left out, random bytes come from a list, loops take a fuel ("Done None": the fuel or the bytes are used up). *)
From Verif Require Import Words TaskModel EncSpec MpModel MpModel2 PemModel.
From Coq Require Import String.
Open Scope N_scope.

(* several kryptos_pem_put_data calls in a row, each made if the one before succeeded *)
Fixpoint put_mps (pem : option (list N)) (l : list (list N * mp)) : result * option (list N) :=
  match l with
  | [] => (Success, pem)
  | (h, a) :: l => match pem_put_mp pem h a with (Success, p) => put_mps p l | r => r end
  end.

(* ---- random numbers *)
(* src/kryptos_mp.c:2889-2922 kryptos_mp_rand: n digits of eight random bytes *)
Fixpoint rand_digits (n : nat) (rs : list N) : option (list N * list N) :=
  match n with
  | O => Some ([], rs)
  | S n =>
      match rs with
      | a :: b :: c :: d :: e :: f :: g :: h :: rs =>
          match rand_digits n rs with Some (ds, rs) => Some (be_val [a; b; c; d; e; f; g; h] :: ds, rs) | None => None end
      | _ => None
      end
  end.
(* the last digit and-ed with the mask *)
Definition mask_top (mask : N) (l : list N) : list N := removelast l ++ [N.land (last l 0) mask].
Fixpoint between_loop (fuel : nat) (lo hi : mp) (n : nat) (mask : N) (rs : list N) : outcome (option (mp * list N)) :=
  match fuel with
  | O => Done None
  | S fuel =>
      match rand_digits n rs with
      | None => Done None
      | Some (ds, rs) => let r := mkMp false (mask_top mask ds) in if (mp_lt r lo || mp_gt r hi)%bool then between_loop fuel lo hi n mask rs else Done (Some (r, rs))
      end
  end.
(* src/kryptos_elgamal.c:343-412 kryptos_elgamal_get_random_mp (lo = 2), src/kryptos_dsa.c:157-227 kryptos_dsa_get_random (lo = 1): a
   number in [lo, q - lo]. The mask has the bits of the top digit of q - lo; if that is 0 the search for its highest bit runs below
   bit 0 (a shift by more than 63). *)
Definition random_between (fuel : nat) (lo : N) (q : mp) (rs : list N) : outcome (option (mp * list N)) :=
  obind (mp_sub (Some (assign None q)) (num lo)) (fun hi =>
  let top := last (data hi) 0 in
  if top =? 0 then UB else between_loop fuel (num lo) hi (size q) (N.ones (N.size top)) rs).

(* ---- src/kryptos_dl_params.c *)
(* 145-228 kryptos_verify_dl_params *)
Definition verify_dl (fuel : nat) (p q g : mp) (rs : list N) : outcome (option (result * list N)) :=
  obind (mp_sub (Some (assign None p)) (num 1)) (fun p_1 =>
  if (mp_le g (num 1) || mp_ge g p_1)%bool then Done (Some (InvalidParams, rs))
  else
    obind (is_prime fuel q rs) (fun o => match o with None => Done None | Some (false, rs) => Done (Some (InvalidParams, rs)) | Some (true, rs) =>
    obind (is_prime fuel p rs) (fun o => match o with None => Done None | Some (false, rs) => Done (Some (InvalidParams, rs)) | Some (true, rs) =>
    obind (mp_div p_1 q) (fun o => match o with None => Done (Some (InvalidParams, rs)) | Some (_, r) =>
    if mp_ne r (num 0) then Done (Some (InvalidParams, rs))
    else obind (me_mod_n g q p) (fun e => Done (Some (if mp_ne e (num 1) then InvalidParams else Success, rs)))
    end) end) end)).

(* ---- src/kryptos_elgamal.c *)
(* src/kryptos_elgamal.h:13-25 *)
Definition eg_p := codes "ELGAMAL PARAM P".
Definition eg_q := codes "ELGAMAL PARAM Q".
Definition eg_g := codes "ELGAMAL PARAM G".
Definition eg_b := codes "ELGAMAL PARAM B".
Definition eg_e := codes "ELGAMAL PARAM E".
Definition eg_d := codes "ELGAMAL PARAM D".
Definition eg_y := codes "ELGAMAL PARAM Y".
(* 28-133 kryptos_elgamal_mk_key_pair for the domain parameters kryptos_generate_dl_params has returned: public and private key *)
Definition eg_key_pair (fuel : nat) (p q g : mp) (rs : list N) : outcome (option ((result * option (list N)) * (result * option (list N)) * list N)) :=
  obind (random_between fuel 2 q rs) (fun o =>
  match o with
  | None => Done None
  | Some (d, rs) => obind (me_mod_n g d p) (fun b => Done (Some (put_mps None [(eg_p, p); (eg_q, q); (eg_g, g); (eg_b, b)], put_mps None [(eg_p, p); (eg_d, d)], rs)))
  end).
Definition answer := outcome (option (result * option (list N) * list N)).
Definition give (r : result) (rs : list N) : answer := Done (Some (r, None, rs)).
Definition fetch_or (bad : answer) (h : list N) (buf : list N) (k : mp -> answer) : answer :=
  obind (pem_get_mp h (Some buf)) (fun a => match a with Some a => k a | None => bad end).
(* the remainder of a division; a division by zero gives NULL *)
Definition rem_or (bad : answer) (a n : mp) (k : mp -> answer) : answer := obind (mp_div a n) (fun o => match o with Some (_, r) => k r | None => bad end).
(* 414-608 kryptos_elgamal_encrypt *)
Definition eg_encrypt (fuel : nat) (key inp rs : list N) : answer :=
  let bad := give ProcessError rs in
  fetch_or bad eg_p key (fun p =>
  obind (mp_sub (Some (assign None p)) (num 1)) (fun p_1 =>
  match raw_buffer_as_mp inp with
  | None => give InvalidParams rs
  | Some x =>
      if (mp_lt x (num 1) || mp_gt x p_1)%bool then give InvalidParams rs
      else
        obind (pem_get_mp eg_q (Some key)) (fun q =>
        fetch_or bad eg_g key (fun g => fetch_or bad eg_b key (fun b =>
        obind (random_between fuel 2 (match q with Some q => q | None => p end) rs) (fun o =>
        match o with
        | None => Done None
        | Some (i, rs) =>
            obind (me_mod_n g i p) (fun ke => obind (me_mod_n b i p) (fun km =>
            rem_or (give ProcessError rs) (mp_mul (Some x) km) p (fun y =>
            Done (Some (put_mps None [(eg_y, y); (eg_e, ke)], rs)))))
        end))))
  end)).
(* 610-760 kryptos_elgamal_decrypt; a missing e ends in kryptos_mp_me_mod_n(NULL, ...) == NULL *)
Definition eg_decrypt (key inp : list N) : answer :=
  let bad := give ProcessError [] in
  fetch_or bad eg_p key (fun p => fetch_or bad eg_d key (fun d =>
  obind (mp_sub (Some (assign None p)) d) (fun t => obind (mp_sub (Some t) (num 1)) (fun p_d_1 =>
  fetch_or bad eg_e inp (fun ke =>
  obind (me_mod_n ke p_d_1 p) (fun km_inv =>
  fetch_or bad eg_y inp (fun y =>
  rem_or bad (mp_mul (Some y) km_inv) p (fun x => Done (Some (Success, Some (as_task_out x), [])))))))))).

(* ---- src/kryptos_dsa.c *)
(* src/kryptos_dsa.h:13-27 *)
Definition dsa_p := codes "DSA P".
Definition dsa_g := codes "DSA G".
Definition dsa_q := codes "DSA Q".
Definition dsa_e := codes "DSA E".
Definition dsa_d := codes "DSA D".
Definition dsa_r := codes "DSA R".
Definition dsa_s := codes "DSA S".
Definition dsa_x := codes "DSA X".
(* 23-155 kryptos_dsa_mk_key_pair for the domain parameters kryptos_generate_dl_params has returned *)
Definition dsa_key_pair (fuel : nat) (p q g : mp) (rs : list N) : outcome (option ((result * option (list N)) * (result * option (list N)) * list N)) :=
  obind (random_between fuel 1 q rs) (fun o =>
  match o with
  | None => Done None
  | Some (d, rs) => obind (me_mod_n g d p) (fun e => Done (Some (put_mps None [(dsa_p, p); (dsa_q, q); (dsa_g, g); (dsa_e, e)], put_mps None [(dsa_p, p); (dsa_q, q); (dsa_g, g); (dsa_d, d)], rs)))
  end).
(* 246-488 kryptos_dsa_sign after the task check; hash is the hash function of the task (or SHA-1), taken to succeed. A parameter that
   is missing ends in the epilogue, which tests and frees htask->out before anything was stored in it (lines 478-480): undefined. *)
Definition dsa_sign (fuel : nat) (hash : list N -> list N) (key inp rs : list N) : answer :=
  fetch_or UB dsa_p key (fun p => fetch_or UB dsa_g key (fun g => fetch_or UB dsa_q key (fun q => fetch_or UB dsa_d key (fun d =>
  obind (random_between fuel 1 q rs) (fun o =>
  match o with
  | None => Done None
  | Some (ke, rs) =>
      obind (modinv fuel ke q) (fun o =>
      match o with
      | None => Done None
      | Some ke_inv =>
          obind (me_mod_n g ke p) (fun t => rem_or UB t q (fun r =>
          let r := assign None r in
          match raw_buffer_as_mp (hash inp) with
          | None => give ProcessError rs
          | Some h =>
              obind (mp_add (Some (mp_mul (Some d) r)) h) (fun d =>
              rem_or (give ProcessError rs) (mp_mul (Some d) ke_inv) q (fun s =>
              match pem_put None dsa_x inp with
              | (Success, o) => match put_mps o [(dsa_r, r); (dsa_s, s)] with (Success, o) => Done (Some (Success, o, rs)) | _ => Done (Some (ProcessError, None, rs)) end
              | _ => Done (Some (ProcessError, None, rs))
              end))
          end))
      end)
  end))))).
(* 490-894 kryptos_dsa_verify after the task check. On success the output is x. *)
Definition dsa_verify (fuel : nat) (hash : list N -> list N) (key inp : list N) : answer :=
  let bad := give ProcessError [] in
  fetch_or UB dsa_p key (fun p => fetch_or UB dsa_g key (fun g => fetch_or UB dsa_q key (fun q => fetch_or UB dsa_e key (fun e =>
  obind (pem_get dsa_x (Some inp)) (fun o => match o with None | Some [] => UB | Some x =>
  fetch_or UB dsa_r inp (fun r => fetch_or UB dsa_s inp (fun s =>
  obind (modinv fuel s q) (fun o =>
  match o with
  | None => Done None
  | Some s_inv =>
      rem_or UB s_inv q (fun w =>
      match raw_buffer_as_mp (hash x) with
      | None => bad
      | Some h =>
          rem_or bad (mp_mul (Some (assign None w)) h) q (fun u1 =>
          rem_or bad (mp_mul (Some (assign None w)) r) q (fun u2 =>
          obind (me_mod_n g (assign None u1) p) (fun v => obind (me_mod_n e (assign None u2) p) (fun e2u2 =>
          rem_or bad (mp_mul (Some v) e2u2) p (fun v => rem_or bad (assign None v) q (fun v => rem_or bad r q (fun r =>
          if mp_eq (assign None v) (assign None r) then Done (Some (Success, Some x, [])) else give InvalidSignature [])))))))
      end)
  end))) end))))).
