(* Model of src/kryptos_ec_utils.c, src/kryptos_ecdsa.c and src/kryptos_ecdh.c. Failed allocations are left out, buffers are byte lists, random
   bytes come from a list, the loop of the modular inverse and the searches for random numbers take a fuel. "Done None": the fuel or the
   bytes are used up, or the field size is zero (the reduction and then the point are NULL). *)
From Verif Require Import Words TaskModel EncSpec MpModel MpModel2 PemModel DlModel.
From Coq Require Import String.
Open Scope N_scope.

(* src/kryptos_types.h kryptos_ec_pt_t, kryptos_ec_t; the point (0, 0) stands for the point at infinity *)
Record pt := mkPt { px : mp; py : mp }.
Record curve := mkCurve { ca : mp; cb : mp; cp : mp }.
(* KRYPTOS_EC_UTILS_DO_OR_DIE: a NULL ends the function with a NULL result *)
Definition odo {A B} (m : outcome (option A)) (k : A -> outcome (option B)) : outcome (option B) := obind m (fun o => match o with Some a => k a | None => Done None end).
Definition osub {B} (a b : mp) (k : mp -> outcome (option B)) : outcome (option B) := obind (sub_s a b) k.
Definition oadd {B} (a b : mp) (k : mp -> outcome (option B)) : outcome (option B) := obind (add_s a b) k.
(* kryptos_mp_barrett_reduction(x, &factor, &sh, p). The factor of a call is the one of the calls before it: it depends on p alone, so
   every call is modelled as the first one. *)
Definition red (x p : mp) : outcome (option mp) := barrett x None p.

(* 269-370 kryptos_ec_dbl *)
Definition ec_dbl (fuel : nat) (P : pt) (c : curve) : outcome (option pt) :=
  if mp_eq (py P) (num 0) then Done (Some (mkPt (num 0) (num 0)))
  else
    odo (modinv_rs fuel (mul_s (num 2) (py P)) (cp c)) (fun inv =>
    oadd (mul_s (num 3) (mul_s (assign None (px P)) (px P))) (ca c) (fun slope =>
    odo (red (mul_s slope inv) (cp c)) (fun slope =>
    osub (mul_s (assign None slope) slope) (px P) (fun x => osub x (px P) (fun x =>
    odo (red x (cp c)) (fun x =>
    osub (assign None (px P)) x (fun t => osub (mul_s (assign None slope) t) (py P) (fun y =>
    odo (red y (cp c)) (fun y => Done (Some (mkPt x y))))))))))).
(* 91-101 kryptos_ec_pt_mod_p *)
Definition ec_mod (P : pt) (c : curve) : outcome (option pt) :=
  odo (red (assign None (px P)) (cp c)) (fun x => odo (red (assign None (py P)) (cp c)) (fun y => Done (Some (mkPt x y)))).
Definition is_inf (P : pt) : bool := (mp_eq (px P) (num 0) && mp_eq (py P) (num 0))%bool.
(* 76-267 kryptos_ec_add *)
Definition ec_add (fuel : nat) (P Q : pt) (c : curve) : outcome (option pt) :=
  odo (ec_mod P c) (fun P => odo (ec_mod Q c) (fun Q =>
  if is_inf P then Done (Some (mkPt (assign None (px Q)) (assign None (py Q))))
  else if is_inf Q then Done (Some (mkPt (assign None (px P)) (assign None (py P))))
  else
    odo (if negb (mp_eq (py Q) (num 0)) then osub (assign None (cp c)) (py Q) (fun t => red t (cp c)) else Done (Some (num 0))) (fun t =>
    if (mp_eq (py P) t && mp_eq (px P) (px Q))%bool then Done (Some (mkPt (num 0) (num 0)))
    else if (mp_eq (px P) (px Q) && mp_eq (py P) (py Q))%bool then ec_dbl fuel P c
    else
      osub (assign (Some t) (px P)) (px Q) (fun t =>
      odo (red t (cp c)) (fun t =>
      odo (modinv_rs fuel t (cp c)) (fun inv =>
      let t := assign (Some t) inv in
      osub (assign None (py P)) (py Q) (fun slope =>
      odo (red (mul_s slope t) (cp c)) (fun slope =>
      osub (mul_s (assign None slope) slope) (px P) (fun x => osub x (px Q) (fun x =>
      odo (red x (cp c)) (fun x =>
      osub (assign None (px P)) x (fun t => osub (mul_s (assign None t) slope) (py P) (fun y =>
      odo (red y (cp c)) (fun y => Done (Some (mkPt x y)))))))))))))))).

(* 411-440 kryptos_ec_mul_step and the loop 444-447 over the bits, the least significant first *)
Definition mul_step (fuel : nat) (c : curve) (s : pt * pt) (b : bool) : outcome (option (pt * pt)) :=
  let '(r, q) := s in
  odo (ec_dbl fuel q c) (fun t =>
  let q := mkPt (assign (Some (px q)) (px t)) (assign (Some (py q)) (py t)) in
  if b then odo (ec_add fuel r q c) (fun t => Done (Some (mkPt (assign (Some (px r)) (px t)) (assign (Some (py r)) (py t)), q)))
  else Done (Some (r, q))).
Fixpoint mul_loop (fuel : nat) (c : curve) (s : pt * pt) (bits : list bool) : outcome (option pt) :=
  match bits with
  | [] => Done (Some (fst s))
  | b :: bits => odo (mul_step fuel c s b) (fun s => mul_loop fuel c s bits)
  end.
(* 372-481 kryptos_ec_mul. The bits from the second lowest up to the highest 1, in this order; the do-while of lines 444-447 makes one turn
   even if there is none. A bitmap is 64 bits long or longer, so that turn reads a 0 of the lowest digit; UB: a bitmap of one bit. *)
Definition ec_mul (fuel : nat) (P : pt) (d : mp) (c : curve) : outcome (option pt) :=
  if mp_eq d (num 0) then Done (Some (mkPt (num 0) (num 0)))
  else
    match rev (bitmap d) with
    | [] => UB
    | [_] => UB
    | low :: b1 :: bits =>
        let q := mkPt (assign None (px P)) (assign None (py P)) in
        let r := if low then mkPt (assign None (px P)) (assign None (py P)) else mkPt (num 0) (num 0) in
        mul_loop fuel c (r, q) (b1 :: rev (drop_zeros (rev bits)))
    end.

(* ---- src/kryptos_ecdsa.c *)
(* src/kryptos_ecdsa.h:13-35 *)
Definition ecdsa_p := codes "ECDSA P".
Definition ecdsa_a := codes "ECDSA A".
Definition ecdsa_b := codes "ECDSA B".
Definition ecdsa_q := codes "ECDSA Q".
Definition ecdsa_ax := codes "ECDSA A X".
Definition ecdsa_ay := codes "ECDSA A Y".
Definition ecdsa_bx := codes "ECDSA B X".
Definition ecdsa_by := codes "ECDSA B Y".
Definition ecdsa_d := codes "ECDSA D".
Definition ecdsa_x := codes "ECDSA X".
Definition ecdsa_r := codes "ECDSA R".
Definition ecdsa_s := codes "ECDSA S".
(* 780-790: n digits of four random bytes and-ed with the mask *)
Fixpoint rand_u32_digits (n : nat) (mask : N) (rs : list N) : option (list N * list N) :=
  match n with
  | O => Some ([], rs)
  | S n =>
      match rs with
      | a :: b :: c :: d :: rs => match rand_u32_digits n mask rs with Some (ds, rs) => Some (N.land (be_val [a; b; c; d]) mask :: ds, rs) | None => None end
      | _ => None
      end
  end.
(* src/kryptos_ecdsa.c:779-792 with lo = 1, src/kryptos_ecdh.c:151-162 with lo = 2: until lo <= d < q *)
Fixpoint u32_loop (fuel : nat) (lo : N) (q : mp) (n : nat) (mask : N) (rs : list N) : outcome (option (mp * list N)) :=
  match fuel with
  | O => Done None
  | S fuel =>
      match rand_u32_digits n mask rs with
      | None => Done None
      | Some (ds, rs) => let d := mkMp false ds in if ((if lo =? 1 then is_zero d else mp_lt d (num lo)) || mp_ge d q)%bool then u32_loop fuel lo q n mask rs else Done (Some (d, rs))
      end
  end.
(* src/kryptos_ecdsa.c:757-795 kryptos_ecdsa_get_random_d, src/kryptos_ecdh.c:121-173 kryptos_ecdh_get_random_k. A mask for bits = 0 is shifted by
   32 bits. *)
Definition u32_random (fuel : nat) (lo : N) (q : mp) (bits : N) (rs : list N) : outcome (option (mp * list N)) :=
  if bits =? 0 then UB
  else
    let n := if N.of_nat (size q) <? N.shiftr bits 6 then size q else new_digits (N.to_nat bits) in
    u32_loop fuel lo q n (if bits <? 32 then N.ones bits else N.ones 32) rs.
(* 19-160 kryptos_ecdsa_mk_key_pair for the curve c with the base point G of order q and the given number of bits *)
Definition ecdsa_key_pair (fuel : nat) (c : curve) (G : pt) (q : mp) (bits : N) (rs : list N) : outcome (option ((result * option (list N)) * (result * option (list N)) * list N)) :=
  odo (u32_random fuel 1 q bits rs) (fun '(d, rs) =>
  odo (ec_mul fuel G d c) (fun B =>
  let common := [(ecdsa_p, cp c); (ecdsa_a, ca c); (ecdsa_b, cb c); (ecdsa_q, q); (ecdsa_ax, px G); (ecdsa_ay, py G)] in
  Done (Some (put_mps None (common ++ [(ecdsa_bx, px B); (ecdsa_by, py B)]), put_mps None ((ecdsa_d, d) :: common), rs)))).
(* the remainder kryptos_mp_mod leaves *)
Definition omod (a q : mp) (k : mp -> answer) (bad : answer) : answer := obind (mp_mod a q) (fun o => match o with Some r => k r | None => bad end).
(* 162-418 kryptos_ecdsa_sign with a hash function (taken to succeed) of hash_size bytes; "Done None" also where a point is NULL *)
Definition ecdsa_sign (fuel : nat) (hash : list N -> list N) (hash_size : N) (key inp rs : list N) : answer :=
  let bad := give ProcessError rs in
  match inp, key with
  | [], _ | _, [] => give InvalidParams rs
  | _, _ =>
      fetch_or bad ecdsa_d key (fun d => fetch_or bad ecdsa_p key (fun p =>
      let bits := 64 * N.of_nat (size p) in
      if 8 * hash_size <? bits then bad
      else
        fetch_or bad ecdsa_a key (fun a => fetch_or bad ecdsa_b key (fun b => fetch_or bad ecdsa_q key (fun q =>
        fetch_or bad ecdsa_ax key (fun x => fetch_or bad ecdsa_ay key (fun y =>
        let c := mkCurve a b p in
        odo (u32_random fuel 1 q bits rs) (fun '(ke, rs) =>
        odo (ec_mul fuel (mkPt x y) ke c) (fun r =>
        odo (modinv fuel ke q) (fun ke_inv =>
        match raw_buffer_as_mp (hash inp) with
        | None => give ProcessError rs
        | Some h =>
            obind (mp_add (Some h) (mp_mul (Some d) (px r))) (fun t =>
            omod (mp_mul (Some t) ke_inv) q (fun s =>
            match pem_put None ecdsa_x inp with
            | (Success, o) => match put_mps o [(ecdsa_r, px r); (ecdsa_s, s)] with (Success, o) => Done (Some (Success, o, rs)) | (_, o) => Done (Some (ProcessError, o, rs)) end
            | (_, o) => Done (Some (ProcessError, o, rs))
            end) (give ProcessError rs))
        end))))))))))
  end.
(* 420-736 kryptos_ecdsa_verify. On success the output is x. The y of point B is not freed before the hash takes x over, which does not matter. *)
Definition ecdsa_verify (fuel : nat) (hash : list N -> list N) (hash_size : N) (key inp : list N) : answer :=
  let bad := give ProcessError [] in
  match inp, key with
  | [], _ | _, [] => give InvalidParams []
  | _, _ =>
      fetch_or bad ecdsa_p key (fun p => fetch_or bad ecdsa_a key (fun a => fetch_or bad ecdsa_b key (fun b =>
      let c := mkCurve a b p in
      if 8 * hash_size <? 64 * N.of_nat (size p) then bad
      else
        fetch_or bad ecdsa_q key (fun q =>
        fetch_or bad ecdsa_ax key (fun x => fetch_or bad ecdsa_ay key (fun y => let A := mkPt x y in
        fetch_or bad ecdsa_bx key (fun x => fetch_or bad ecdsa_by key (fun y => let B := mkPt x y in
        fetch_or bad ecdsa_r inp (fun r => fetch_or bad ecdsa_s inp (fun s =>
        obind (pem_get ecdsa_x (Some inp)) (fun o => match o with None | Some [] => bad | Some msg =>
        odo (modinv fuel s q) (fun s_inv =>
        match raw_buffer_as_mp (hash msg) with
        | None => bad
        | Some h =>
            omod (mp_mul (Some (assign None s_inv)) h) q (fun u1 =>
            omod (mp_mul (Some (assign None s_inv)) r) q (fun u2 =>
            odo (ec_mul fuel A u1 c) (fun AP => odo (ec_mul fuel B u2 c) (fun BP => odo (ec_add fuel AP BP c) (fun P =>
            if mp_eq (px P) r then Done (Some (Success, Some msg, [])) else give InvalidSignature [])))) bad) bad
        end) end)))))))))))
  end.

(* ---- src/kryptos_ecdh.c *)
(* src/kryptos_ecdh.h:13-29 *)
Definition ecdh_bits := codes "ECDH PARAM EC BITS".
Definition ecdh_p := codes "ECDH PARAM EC P".
Definition ecdh_a := codes "ECDH PARAM EC A".
Definition ecdh_b := codes "ECDH PARAM EC B".
Definition ecdh_gx := codes "ECDH PARAM EC G X".
Definition ecdh_gy := codes "ECDH PARAM EC G Y".
Definition ecdh_q := codes "ECDH PARAM EC Q".
Definition ecdh_kx := codes "ECDH PARAM KP X".
Definition ecdh_ky := codes "ECDH PARAM KP Y".
(* snprintf(temp, 39, "%d", (unsigned int)bits) for bits below 2^31: at most 10 digits *)
Fixpoint dec_loop (fuel : nat) (n : N) (acc : list N) : list N :=
  match fuel with O => acc | S fuel => let acc := (48 + n mod 10) :: acc in if n <? 10 then acc else dec_loop fuel (n / 10) acc end.
Definition dec (n : N) : list N := dec_loop 10 n [].
(* strtoul(temp, NULL, 10) on a buffer that holds digits only; the NUL after them, which the buffer of kryptos_pem_get_data does not
   promise, is taken for granted *)
Definition undec (l : list N) : N := fold_left (fun a d => 10 * a + (d - 48)) l 0.
(* kryptos_ecdh_process_xchg 187-299: the sender, with the curve c, the base point G of order q, no secret yet: the result, the secret and
   the message *)
Definition ecdh_start (fuel : nat) (c : curve) (G : pt) (q : mp) (bits : N) (rs : list N) : outcome (option (result * mp * option (list N) * list N)) :=
  odo (u32_random fuel 2 q bits rs) (fun '(k, rs) =>
  odo (ec_mul fuel G k c) (fun K =>
  let '(r, o) := match pem_put None ecdh_bits (dec bits) with
                 | (Success, o) => put_mps o [(ecdh_p, cp c); (ecdh_a, ca c); (ecdh_b, cb c); (ecdh_gx, px G); (ecdh_gy, py G); (ecdh_q, q); (ecdh_kx, px K); (ecdh_ky, py K)]
                 | r => r
                 end in
  Done (Some (r, k, match r with Success => o | _ => None end, rs)))).
(* 300-397 with 25-119 kryptos_ecdh_get_curve_from_params_buf: the receiver, without a curve and a secret: the result, the key and the answer *)
Definition xgive (r : result) (rs : list N) : outcome (option (result * option mp * option (list N) * list N)) := Done (Some (r, None, None, rs)).
Definition efetch {A} (bad : outcome (option A)) (h : list N) (buf : list N) (k : mp -> outcome (option A)) : outcome (option A) :=
  obind (pem_get_mp h (Some buf)) (fun a => match a with Some a => k a | None => bad end).
Definition ecdh_answer (fuel : nat) (inp rs : list N) : outcome (option (result * option mp * option (list N) * list N)) :=
  let bad := xgive ProcessError rs in
  match inp with
  | [] => xgive InvalidParams rs
  | _ =>
      efetch bad ecdh_p inp (fun p => efetch bad ecdh_a inp (fun a => efetch bad ecdh_b inp (fun b =>
      efetch bad ecdh_gx inp (fun gx => efetch bad ecdh_gy inp (fun gy => efetch bad ecdh_q inp (fun q =>
      obind (pem_get ecdh_bits (Some inp)) (fun o => match o with None => bad | Some t =>
      let c := mkCurve a b p in
      odo (u32_random fuel 2 q (undec t) rs) (fun '(k, rs) =>
      odo (ec_mul fuel (mkPt gx gy) k c) (fun K =>
      match put_mps None [(ecdh_kx, px K); (ecdh_ky, py K)] with
      | (Success, o) =>
          efetch (xgive ProcessError rs) ecdh_kx inp (fun x => efetch (xgive ProcessError rs) ecdh_ky inp (fun y =>
          odo (ec_mul fuel (mkPt (assign None x) (assign None y)) k c) (fun T => Done (Some (Success, Some (px T), o, rs)))))
      | (r, _) => xgive r rs
      end)) end)))))))
  end.
(* 398-443: the sender has got the answer *)
Definition ecdh_finish (fuel : nat) (c : curve) (k : mp) (inp : list N) : outcome (option (result * option mp)) :=
  let bad := Done (Some (ProcessError, None)) in
  efetch bad ecdh_kx inp (fun x => efetch bad ecdh_ky inp (fun y =>
  odo (ec_mul fuel (mkPt (assign None x) (assign None y)) k c) (fun T => Done (Some (Success, Some (px T)))))).
