(* Number-theoretic functions of src/kryptos_mp.c over MpModel. Loops take a fuel; "None" inside an outcome says that the loop has not
   ended within it. Random bytes come from a list that is consumed from its head; "None" also says that the list was too short. *)
From Verif Require Import Words MpModel.
Open Scope N_scope.

(* kryptos_mp.h:120 *)
Definition is_even (a : mp) : bool := negb (is_odd a).

(* ---- greatest common divisor *)
(* src/kryptos_mp.c:3694-3696, 3698-3700: while (even(x)) x >>= 1 *)
Fixpoint odd_part (fuel : nat) (x : mp) : option mp :=
  match fuel with O => None | S fuel => if is_even x then odd_part fuel (mp_rsh x 1) else Some x end.
(* src/kryptos_mp.c:3683-3687 *)
Fixpoint common_twos (fuel : nat) (x y g : mp) : option (mp * mp * mp) :=
  match fuel with
  | O => None
  | S fuel => if (is_even x && is_even y)%bool then common_twos fuel (mp_rsh x 1) (mp_rsh y 1) (mp_lsh g 1) else Some (x, y, g)
  end.
(* src/kryptos_mp.c:3693-3717 *)
Fixpoint gcd_loop (fuel : nat) (x y : mp) : outcome (option mp) :=
  match fuel with
  | O => Done None
  | S fuel' =>
      if mp_ne x (num 0)
      then
        match odd_part fuel x with
        | None => Done None
        | Some x =>
            match odd_part fuel y with
            | None => Done None
            | Some y =>
                obind (if mp_lt y x then mp_sub (Some x) y else mp_sub (Some y) x) (fun t =>
                let t := mp_rsh t 1 in
                if mp_ge x y then gcd_loop fuel' (assign (Some x) t) y else gcd_loop fuel' x (assign (Some y) t))
            end
        end
      else Done (Some y)
  end.
(* src/kryptos_mp.c:3663-3745 kryptos_mp_gcd. The temporary t is a fresh value on every turn (its size does not matter). *)
Definition gcd (fuel : nat) (a b : mp) : outcome (option mp) :=
  let '(x, y) := if mp_gt a b then (assign None a, assign None b) else (assign None b, assign None a) in
  match common_twos fuel x y (num 1) with
  | None => Done None
  | Some (x, y, g) => obind (gcd_loop fuel x y) (fun r => Done (match r with Some y => Some (mp_mul (Some g) y) | None => None end))
  end.

(* ---- modular inverse *)
(* src/kryptos_mp.c:4059-4064, 4067-4072: half of r modulo the odd m *)
Definition half_mod (r m : mp) : outcome mp :=
  if is_even r then Done (mp_rsh r 1) else obind (add_s r m) (fun r => Done (mp_rsh r 1)).
(* src/kryptos_mp.c:4075-4079, 4081-4085 *)
Definition sub_mod (r s m : mp) : outcome mp := obind (sub_s r s) (fun r => if neg r then add_s r m else Done r).
(* src/kryptos_mp.c:4056-4088 *)
Fixpoint inv_loop (fuel : nat) (m u v r s : mp) : outcome (option (mp * mp)) :=
  match fuel with
  | O => Done None
  | S fuel =>
      if is_zero v then Done (Some (u, r))
      else if is_even u then obind (half_mod r m) (fun r => inv_loop fuel m (mp_rsh u 1) v r s)
      else if is_even v then obind (half_mod s m) (fun s => inv_loop fuel m u (mp_rsh v 1) r s)
      else if mp_gt u v then obind (sub_s u v) (fun u => obind (sub_mod r s m) (fun r => inv_loop fuel m u v r s))
      else obind (sub_s v u) (fun v => obind (sub_mod s r m) (fun s => inv_loop fuel m u v r s))
  end.
(* src/kryptos_mp.c:4042-4133 kryptos_mp_modinv_rs *)
Definition modinv_rs (fuel : nat) (a m : mp) : outcome (option mp) :=
  obind (inv_loop fuel m (assign None m) (assign None a) (num 0) (num 1)) (fun ur =>
  match ur with
  | None => Done None
  | Some (u, r) =>
      if mp_gt u (num 1) then Done (Some (num 0))
      else if mp_gt r m then obind (sub_s r m) (fun r => Done (Some r))
      else if neg r then obind (add_s r m) (fun r => Done (Some r))
      else Done (Some r)
  end).
(* src/kryptos_mp.c:3971-3984; the boolean is iter > 0 (char is signed). A division that fails ends with the value 0, see modinv. *)
Fixpoint euclid_loop (fuel : nat) (u1 u3 v1 v3 : mp) (iter : bool) : outcome (option (mp * mp * bool)) :=
  match fuel with
  | O => Done None
  | S fuel =>
      if mp_ne v3 (num 0)
      then
        obind (mp_div u3 v3) (fun qr =>
        match qr with
        | None => UB (* not reachable: v3 is not zero *)
        | Some (q, t3) =>
            obind (mp_add (Some (mp_mul (Some q) v1)) u1) (fun t1 =>
            euclid_loop fuel (assign (Some u1) v1) (assign (Some u3) v3) (assign (Some v1) t1) (assign (Some v3) t3) (negb iter))
        end)
      else Done (Some (u1, u3, iter))
  end.
(* src/kryptos_mp.c:3952-4038 kryptos_mp_modinv. The buffer of t1 is a fresh value on every turn. *)
Definition modinv (fuel : nat) (u v : mp) : outcome (option mp) :=
  if is_odd v then modinv_rs fuel u v
  else
    obind (euclid_loop fuel (num 1) (assign None u) (num 0) (assign None v) true) (fun r =>
    match r with
    | None => Done None
    | Some (u1, u3, iter) =>
        if mp_eq u3 (num 1)
        then if iter then Done (Some (assign None u1)) else obind (mp_sub (Some (assign None v)) u1) (fun inv => Done (Some inv))
        else Done (Some (num 0))
    end).

(* ---- Barrett and Montgomery reductions *)
(* src/kryptos_mp.c:2143-2150: twice the number of bits from the first 1 on *)
Fixpoint drop_zeros (l : list bool) : list bool := match l with false :: l => drop_zeros l | _ => l end.
Definition barrett_shift (m : mp) : nat := (2 * length (drop_zeros (bitmap m)))%nat.
(* src/kryptos_mp.c:2119-2209 kryptos_mp_barrett_reduction; fs is the factor and the shift of an earlier call, None: *factor is NULL.
   None: NULL is returned *)
Definition barrett (x : mp) (fs : option (mp * nat)) (m : mp) : outcome (option mp) :=
  let reduce_with '(factor, sh) :=
    if (neg x || mp_ge x (mp_lsh (assign None m) 1))%bool then mp_mod (assign None x) m
    else
      let temp := mp_mul (Some (mp_rsh (mp_mul (Some (assign None x)) factor) sh)) m in
      obind (mp_sub (Some (assign None x)) temp) (fun r =>
      if mp_ge r m then obind (mp_sub (Some r) m) (fun r => Done (Some r)) else Done (Some r)) in
  match fs with
  | Some fs => reduce_with fs
  | None =>
      if (neg m || is_zero m)%bool then Done None
      else
        let sh := barrett_shift m in
        obind (mp_div (mp_lsh (num 1) sh) m) (fun qr =>
        match qr with Some (factor, _) => reduce_with (factor, sh) | None => Done None end)
  end.
(* src/kryptos_mp.c:3630-3661 kryptos_mp_montgomery_reduction_2kx_mod_y *)
Definition mont_step (y : mp) (xt : outcome mp) : outcome mp :=
  obind xt (fun xt => obind (if is_odd xt then mp_add (Some xt) y else Done xt) (fun xt => Done (mp_rsh xt 1))).
Definition mont_2kx (x y : mp) : outcome mp :=
  obind (Nat.iter (64 * size x) (mont_step y) (Done (assign None x))) (fun xt => if mp_ge xt y then mp_sub (Some xt) y else Done xt).
(* src/kryptos_mp.c:3574-3628 kryptos_mp_montgomery_reduction. UB: the copy of lines 3613-3620 writes rdn + 1 digits to a value made for
   8 * (rdn + 1) bits *)
Definition montgomery (x y : mp) : outcome (option mp) :=
  obind (mont_2kx x y) (fun z =>
  obind (mp_div (mp_lsh (num 1) (64 * size x)) y) (fun qr =>
  match qr with
  | None => Done None
  | Some (_, r) =>
      obind (mp_div (mp_mul (Some z) r) y) (fun qr =>
      match qr with
      | None => Done None
      | Some (_, r) =>
          match strip (data r) with
          | [] => Done (Some r)
          | s => if Nat.ltb (new_digits (8 * length s)) (length s) then UB else Done (Some (mkMp false (s ++ repeat 0 (new_digits (8 * length s) - length s))))
          end
      end)
  end)).

(* ---- random values *)
(* src/kryptos_mp.c:2924-2973 kryptos_mp_gen_random: KRYPTOS_MP_DIGIT_U32 is never defined (the macro is KRYPTOS_MP_U32_DIGIT), so each
   digit is one random byte, the most significant digit first. None: not enough random bytes; Some (None, _): NULL is returned. *)
Definition gen_random (n : mp) (rs : list N) : outcome (option (option mp * list N)) :=
  if Nat.ltb (length rs) (size n) then Done None
  else
    let r := mkMp false (rev (firstn (size n) rs)) in
    obind (mp_div r n) (fun qr => Done (Some (match qr with Some (_, m) => Some m | None => None end, skipn (size n) rs))).

(* ---- primality *)
(* src/kryptos_mp.c:3042-3073: n_1 = 2^k * m: (k, m) *)
Fixpoint two_power (fuel : nat) (n_1 : mp) (pn : nat) (n_div : mp) : outcome (option (nat * mp)) :=
  match fuel with
  | O => Done None
  | S fuel =>
      obind (div_2p n_1 (S pn)) (fun '(d, r) =>
      if mp_eq r (num 0) then two_power fuel n_1 (S pn) d else Done (Some (pn, n_div)))
  end.
(* src/kryptos_mp.c:3098-3106: a random value above 1; Some None: gen_random returned NULL *)
Fixpoint random_base (fuel : nat) (p : mp) (rs : list N) : outcome (option (option mp * list N)) :=
  match fuel with
  | O => Done None
  | S fuel =>
      obind (gen_random p rs) (fun a =>
      match a with
      | Some (Some a, rs) => if mp_le a (num 1) then random_base fuel p rs else Done (Some (Some a, rs))
      | _ => Done a
      end)
  end.
(* src/kryptos_mp.c:3135-3152: squarings *)
Fixpoint squarings (sn : nat) (n n_1 b : mp) : outcome bool :=
  match sn with
  | O => Done false
  | S sn =>
      obind (me_mod_n b (num 2) n) (fun b =>
      if mp_eq b (num 1) then Done false else if mp_eq b n_1 then Done true else squarings sn n n_1 b)
  end.
(* src/kryptos_mp.c:2986-3198 kryptos_mp_miller_rabin_test; the verdict and the random bytes left *)
Definition miller_rabin (fuel : nat) (n : mp) (sn : nat) (rs : list N) : outcome (option (bool * list N)) :=
  if is_even n then Done (Some (false, rs))
  else if mp_eq n (num 2) then Done (Some (true, rs))
  else
    obind (mp_sub (Some (assign None n)) (num 1)) (fun n_1 =>
    obind (div_2p n_1 1) (fun '(d, _) =>
    obind (two_power fuel n_1 1 d) (fun km =>
    match km with
    | None => Done None
    | Some (_, m) =>
        obind (mp_sub (Some (assign None n_1)) (num 1)) (fun p =>
        obind (if mp_eq p (num 1) then Done (Some (Some p, rs)) else random_base fuel p rs) (fun a =>
        match a with
        | None => Done None
        | Some (None, rs) => Done (Some (false, rs))
        | Some (Some a, rs) =>
            obind (me_mod_n a m n) (fun b =>
            if (mp_eq b (num 1) || mp_eq b n_1)%bool then Done (Some (true, rs))
            else obind (squarings sn n n_1 b) (fun v => Done (Some (v, rs))))
        end))
    end))).
(* src/kryptos_mp.c:3257-3283; gen_random of a value below 2 is not reached with NULL (n_2 is at least 1) *)
Fixpoint fermat_loop (k : nat) (n n_1 n_2 : mp) (rs : list N) : outcome (option (bool * list N)) :=
  match k with
  | O => Done (Some (true, rs))
  | S k =>
      obind (gen_random n_2 rs) (fun a =>
      match a with
      | None => Done None
      | Some (a, rs) =>
          obind (mp_add a (num 1)) (fun a =>
          obind (me_mod_n a n_1 n) (fun r => if mp_eq r (num 1) then fermat_loop k n n_1 n_2 rs else Done (Some (false, rs))))
      end)
  end.
(* src/kryptos_mp.c:3200-3308 kryptos_mp_fermat_test *)
Definition fermat (n : mp) (k : nat) (rs : list N) : outcome (option (bool * list N)) :=
  if mp_le n (num 2) then Done (Some (mp_eq n (num 2), rs))
  else if is_even n then Done (Some (false, rs))
  else obind (mp_sub (Some (assign None n)) (num 1)) (fun n_1 => obind (mp_sub (Some (assign None n_1)) (num 1)) (fun n_2 => fermat_loop k n n_1 n_2 rs)).
(* src/kryptos_mp.c:2975-2984 kryptos_mp_is_prime *)
Definition is_prime (fuel : nat) (n : mp) (rs : list N) : outcome (option (bool * list N)) :=
  obind (fermat n 7 rs) (fun v =>
  match v with
  | Some (true, rs) => miller_rabin fuel n 14 rs
  | _ => Done v
  end).
