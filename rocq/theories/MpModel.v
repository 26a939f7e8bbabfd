(* Multiprecision integers, src/kryptos_mp.c, in the default configuration: KRYPTOS_MP_U32_DIGIT and KRYPTOS_MP_EXTENDED_RADIX
   (64-bit digits, 128-bit intermediate results) and kryptos_mp_div of lines 1464-1849. Allocations succeed. A value is its sign
   and its digits, the least significant first; data_size is the length of the list, at least 1. Array walks are written as
   recursions over the list the C code walks over. *)
From Verif Require Import Words.
Open Scope N_scope.

Definition B : N := 2 ^ 64.
(* src/kryptos_types.h: kryptos_mp_value_t *)
Record mp := mkMp { neg : bool; data : list N }.
Definition size (a : mp) : nat := length (data a).
Definition set_neg (a : mp) (s : bool) : mp := mkMp s (data a).

(* src/kryptos_mp.c:234-264 kryptos_new_mp_value: the number of digits for a size in bits (at least 8, rounded up to whole digits) *)
Definition new_digits (bits : nat) : nat := Nat.max 1 ((bits + 63) / 64).
Definition new_mp (bits : nat) : mp := mkMp false (repeat 0 (new_digits bits)).
(* with kryptos_mp_byte2bit(n), kryptos_mp.h:159 *)
Definition new_mp_digits (n : nat) : mp := new_mp (64 * n).

(* src/kryptos_mp.c:279-312 kryptos_assign_mp_value *)
Definition assign (dest : option mp) (src : mp) : mp :=
  let d := match dest with Some d => d | None => new_mp_digits (size src) end in
  let n := if Nat.ltb (size d) (size src) then size src else size d in
  mkMp (neg src) (data src ++ repeat 0 (n - size src)).

(* ---- hexadecimal *)
(* src/kryptos_mp.c:33 kryptos_mp_xnb in the C locale: isdigit(n) ? n - 48 : toupper(n) - 55, kept in a kryptos_u8_t *)
Definition xnb (c : N) : N :=
  if ((48 <=? c) && (c <=? 57))%bool then c - 48
  else let u := if ((97 <=? c) && (c <=? 122))%bool then c - 32 else c in (u + 256 - 55) mod 256.
(* src/kryptos_mp.c:35-39 kryptos_mp_nbx *)
Definition nbxlt : list N := [48; 49; 50; 51; 52; 53; 54; 55; 56; 57; 65; 66; 67; 68; 69; 70].
Definition nbx (x : N) : N := nthN nbxlt x.
(* src/kryptos_mp.c:395-414: sixteen characters make one digit, two at a time: data[d] <<= 4; nb = (nb << 4) | ..; data[d] <<= 4;
   data[d] |= nb, nb being an 8-bit variable *)
Fixpoint hex_digit (l : list N) (acc : N) : N :=
  match l with
  | a :: b :: l => hex_digit l (N.lor (shlw 64 (shlw 64 acc 4) 4) (N.lor (shlw 8 (xnb a) 4) (xnb b)))
  | _ => acc
  end.
(* src/kryptos_mp.c:314-428 kryptos_hex_value_as_mp: a leading '-', padding with '0' to a multiple of 16 characters, the most
   significant digit first *)
Definition hex_value_as_mp (value : list N) : option mp :=
  match value with
  | [] => None
  | c :: rest =>
      let s := c =? 45 in
      let v := if s then rest else value in
      let e := length v in
      let padded := repeat 48 ((16 - e mod 16) mod 16) ++ v in
      let ds := map (fun l => hex_digit l 0) (chunks 16 padded) in
      Some (mkMp s (rev ds ++ repeat 0 (new_digits (4 * length padded) - length ds)))
  end.
(* src/kryptos_mp.c:430-514 kryptos_mp_value_as_hex: '-' and sixteen characters for each digit. The second component is the size
   reported to the caller, which does not count the '-' *)
Definition digit_hex (d : N) : list N :=
  map (fun sh => nbx (N.land (N.shiftr d sh) 0xF)) [60; 56; 52; 48; 44; 40; 36; 32; 28; 24; 20; 16; 12; 8; 4; 0].
Definition value_as_hex (a : mp) : list N * nat :=
  ((if neg a then [45] else []) ++ concat (map digit_hex (rev (data a))), (16 * size a)%nat).
(* the constants kryptos_hex_value_as_mp("0", 1), ("1", 1), ("2", 1) and the like *)
Definition num (d : N) : mp := mkMp false [d].
(* src/kryptos_mp.c:4199-4235 kryptos_raw_buffer_as_mp *)
Definition raw_buffer_as_mp (buf : list N) : option mp :=
  match buf with [] => None | _ => hex_value_as_mp (concat (map (fun b => [nbx (N.shiftr b 4); nbx (N.land b 0xF)]) buf)) end.
(* kryptos_mp.h:193-212 kryptos_mp_as_task_out: the digits big-endian, the most significant first *)
Definition as_task_out (a : mp) : list N := concat (map (be_bytes 8) (rev (data a))).

(* ---- addition and subtraction *)
Definition max_min (a b : mp) : mp * mp := if Nat.leb (size b) (size a) then (a, b) else (b, a).
(* the loops "for (sn = data_size - 1; sn >= 0 && data[sn] == 0; sn--)": without the zero digits at the end *)
Fixpoint strip (l : list N) : list N :=
  match l with [] => [] | d :: r => match strip r with [] => if d =? 0 then [] else [d] | r' => d :: r' end end.
(* src/kryptos_mp.c:625-640: the digits and the last carry *)
Fixpoint add_loop (a b : list N) (c : N) : list N * N :=
  match a with
  | [] => ([], c)
  | x :: a =>
      let s := x + match b with y :: _ => y | [] => 0 end + c in
      let '(r, c') := add_loop a (tl b) (if B - 1 <? s then 1 else 0) in
      (N.land s (B - 1) :: r, c')
  end.
(* little-endian memory image cut to n bytes and read as new_digits(8 * n) digits (the memcpy of data_size bytes in lines 594-597
   and 1015-1018; little-endian host) *)
Fixpoint digits_val (l : list N) : N := match l with [] => 0 | d :: l => d + B * digits_val l end.
Fixpoint to_digits (n : nat) (v : N) : list N := match n with O => [] | S n => v mod B :: to_digits n (v / B) end.
Definition copy_bytes (src : mp) : mp := mkMp false (to_digits (new_digits (8 * size src)) (digits_val (data src) mod 2 ^ N.of_nat (8 * size src))).
(* src/kryptos_mp.c:578-668 kryptos_mp_add; signs are not looked at. UB: when the sum is zero, sn is -1, the new data has the size of
   sum and none of its digits is written (newseg does not clear) *)
Definition mp_add (dest : option mp) (src : mp) : outcome mp :=
  match dest with
  | None => Done (copy_bytes src)
  | Some d =>
      let '(a, b) := max_min d src in
      let n := new_digits (64 * (size src + size d)) in
      let '(r, c) := add_loop (data a) (data b) 0 in
      let sum := r ++ (if Nat.ltb (length r) n then (if 0 <? c then [c] else [0]) else []) ++ repeat 0 (n - length r - 1) in
      match strip sum with [] => UB | s => Done (mkMp (neg d) s) end
  end.
(* src/kryptos_mp.c:4135-4147 kryptos_mp_not *)
Definition mp_not (a : mp) : mp := mkMp (neg a) (map (notw 64) (data a)).
(* src/kryptos_mp.c:737-746 kryptos_mp_inv_cmplt *)
Definition inv_cmplt (a : mp) : outcome mp := mp_add (Some (mp_not a)) (num 1).
(* src/kryptos_mp.c:4237-4253 kryptos_mp_is_zero and the same loops in kryptos_mp_sub and kryptos_mp_div *)
Definition is_zero (a : mp) : bool := forallb (fun d => d =? 0) (data a).
(* src/kryptos_mp.c:804-817: 128-bit bsub, 64-bit c *)
Fixpoint sub_loop (n : nat) (a b : list N) (c : N) : list N * N :=
  match n with
  | O => ([], c)
  | S n =>
      let bsub := addw 128 (subw 128 (hd 0 a) (hd 0 b)) c in
      let '(r, c') := sub_loop n (tl a) (tl b) (addw 64 c (N.shiftr bsub 64)) in
      (N.land bsub (B - 1) :: r, c')
  end.
(* src/kryptos_mp.c:748-866 kryptos_mp_sub; signs are not looked at *)
Definition mp_sub (dest : option mp) (src : mp) : outcome mp :=
  match dest with
  | None => Done (mkMp false (data (assign None src)))
  | Some d =>
      if is_zero src then Done d
      else if is_zero d then Done (assign None src)
      else
        let dn := Nat.max (size d) (size src) in
        let '(r, c) := sub_loop dn (data d) (data src) 0 in
        let delta := mkMp false (r ++ repeat 0 (new_digits (64 * dn) - dn)) in
        obind (if c =? B - 1 then obind (inv_cmplt delta) (fun t => Done (set_neg t true)) else Done delta) (fun delta =>
        match strip (data delta) with
        | [] => Done (mkMp (neg delta) (repeat 0 (size delta)))
        | s => Done (mkMp (neg delta) s)
        end)
  end.

(* ---- multiplication *)
(* src/kryptos_mp.c:1054-1067: one turn of the outer loop; m is m->data from index r on *)
Fixpoint mul_row (y : N) (x m : list N) (mc ac : N) : list N :=
  match x, m with
  | d :: x, w :: m =>
      let bmul := y * d + mc in
      let bsum := w + N.land bmul (B - 1) + ac in
      N.land bsum (B - 1) :: mul_row y x m (N.shiftr bmul 64) (if B - 1 <? bsum then 1 else 0)
  | [], w :: m => N.land (w + mc + ac) (B - 1) :: m
  | _, [] => []
  end.
Fixpoint mul_loop (ys x m : list N) : list N :=
  match ys with
  | [] => m
  | y :: ys => match mul_row y x m 0 0 with w :: m => w :: mul_loop ys x m | [] => [] end
  end.
(* src/kryptos_mp.c:994-1098 kryptos_mp_mul; the result has no sign *)
Definition mp_mul (dest : option mp) (src : mp) : mp :=
  match dest with
  | None => copy_bytes src
  | Some d =>
      let '(x, y) := max_min d src in
      let m := mul_loop (data y) (data x) (data (new_mp_digits (size d + size src + 1))) in
      let s := strip m in
      mkMp false (s ++ repeat 0 (new_digits (64 * length s) - length s))
  end.
(* src/kryptos_mp.c:1424-1436 *)
Fixpoint mul_digit_loop (l : list N) (digit mc : N) : list N * N :=
  match l with
  | [] => ([], mc)
  | d :: l =>
      let bmul := d * digit + mc in
      let '(r, mc') := mul_digit_loop l digit (N.shiftr bmul 64) in
      (N.land bmul (B - 1) :: r, mc')
  end.

(* ---- shifts *)
(* src/kryptos_mp.c:3327-3337: one turn of the outer loop *)
Fixpoint shl1 (l : list N) (lc : N) : list N :=
  match l with [] => [] | d :: l => N.lor (shlw 64 d 1) lc :: shl1 l (N.shiftr d 63) end.
(* src/kryptos_mp.c:3310-3346 kryptos_mp_lsh, for levels >= 0 *)
Definition mp_lsh (a : mp) (level : nat) : mp :=
  let t := assign (Some (new_mp (64 * size a + level))) a in
  mkMp (neg t) (Nat.iter level (fun l => shl1 l 0) (data t)).
(* src/kryptos_mp.c:3380-3388: one turn of the outer loop, from the most significant digit down; also returns the last lc *)
Fixpoint shr1 (l : list N) : list N * N :=
  match l with [] => ([], 0) | d :: l => let '(r, lc) := shr1 l in (N.lor (N.shiftr d 1) (shlw 64 lc 63) :: r, N.land d 1) end.
(* src/kryptos_mp.c:3389: data[data_size - 1] |= signal *)
Fixpoint or_last (l : list N) (s : N) : list N :=
  match l with [] => [] | [d] => [N.lor d s] | d :: l => d :: or_last l s end.
(* src/kryptos_mp.c:3348-3407 kryptos_mp_rsh_op; the result has no sign *)
Definition mp_rsh_op (a : mp) (level : nat) (signed : bool) : mp :=
  let signal := if signed then shlw 64 (if neg a then 1 else 0) 63 else 0 in
  mkMp false (Nat.iter level (fun l => or_last (fst (shr1 l)) signal) (data a)).
(* kryptos_mp.h:122 *)
Definition mp_rsh (a : mp) (level : nat) : mp := mp_rsh_op a level false.
(* src/kryptos_mp.c:1409-1451 kryptos_mp_mul_digit *)
Fixpoint set_last (l : list N) (v : N) : list N :=
  match l with [] => [] | [_] => [v] | d :: l => d :: set_last l v end.
Definition mul_digit (x : mp) (digit : N) : mp :=
  let '(r, mc) := mul_digit_loop (data x) digit 0 in
  let x := mkMp (neg x) r in
  if 0 <? mc then let x := mp_rsh (mp_lsh x 64) 64 in mkMp (neg x) (set_last (data x) mc) else x.

(* ---- comparison *)
Fixpoint eqd (a b : list N) : bool :=
  match a, b with [], [] => true | x :: a, y :: b => ((x =? y) && eqd a b)%bool | _, _ => false end.
(* src/kryptos_mp.c:1100-1134 kryptos_mp_eq *)
Definition mp_eq (a b : mp) : bool :=
  if Bool.eqb (neg a) (neg b)
  then if Nat.eqb (size a) (size b) then eqd (data a) (data b)
       else let '(aa, bb) := max_min a b in
            (forallb (fun d => d =? 0) (skipn (size bb) (data aa)) && eqd (firstn (size bb) (data aa)) (data bb))%bool
  else false.
(* src/kryptos_mp.c:1164-1173: the bits of two digits from number n - 1 down *)
Fixpoint bitcmp (n : nat) (x y : N) : comparison :=
  match n with
  | O => Eq
  | S n => match N.testbit x (N.of_nat n), N.testbit y (N.of_nat n) with true, false => Gt | false, true => Lt | _, _ => bitcmp n x y end
  end.
(* src/kryptos_mp.c:1189-1259: digits from the most significant down *)
Fixpoint digcmp (a b : list N) : comparison :=
  match a, b with x :: a, y :: b => match digcmp a b with Eq => bitcmp 64 x y | c => c end | _, _ => Eq end.
(* src/kryptos_mp.c:1136-1262 kryptos_mp_get_gt: Gt, Lt, Eq for the results a, b, NULL (a and b are different objects). The memcmp
   of line 1148 looks at data_size bytes, not digits (little-endian host). *)
Definition get_gt (a b : mp) : comparison :=
  if (Nat.eqb (size a) (size b) && negb (Bool.eqb (neg a) (neg b)) &&
      (digits_val (data a) mod 2 ^ N.of_nat (8 * size a) =? digits_val (data b) mod 2 ^ N.of_nat (8 * size a)))%bool
  then if neg a then Lt else Gt
  else
    let '(aa, bb) := max_min a b in
    let flip c := if Nat.leb (size b) (size a) then c else CompOpp c in
    if forallb (fun d => d =? 0) (skipn (size bb) (data aa)) then flip (digcmp (firstn (size bb) (data aa)) (data bb)) else flip Gt.
(* kryptos_mp.h:108-116 *)
Definition mp_ne a b := negb (mp_eq a b).
Definition mp_gt a b := (mp_ne a b && match get_gt a b with Gt => true | _ => false end)%bool.
Definition mp_lt a b := mp_gt b a.
Definition mp_ge a b := (mp_eq a b || match get_gt a b with Gt => true | _ => false end)%bool.
Definition mp_le a b := (mp_eq a b || match get_gt a b with Lt => true | _ => false end)%bool.
Definition is_odd (a : mp) : bool := N.testbit (hd 0 (data a)) 0.

(* ---- division *)
(* src/kryptos_mp.c:1531-1535, 1574-1577: the number of digits without the zeros at the end *)
Definition sig (a : mp) : nat := length (strip (data a)).
Definition nthd (a : mp) (i : nat) : N := nth i (data a) 0.
(* src/kryptos_mp.c:1570-1580. The fuel is the number of turns; 63 are enough for a digit that is not zero. *)
Fixpoint normalize (fuel : nat) (xn yn : mp) (s : nat) : mp * mp * nat :=
  match fuel with
  | O => (xn, yn, s)
  | S fuel => if nthd yn (sig yn - 1) <? 2 ^ 63 then normalize fuel (mp_lsh xn 1) (mp_lsh yn 1) (S s) else (xn, yn, s)
  end.
(* src/kryptos_mp.c:1613-1616: at most 255 subtractions; the count and what is left *)
Fixpoint guess_loop (fuel : nat) (xn b : mp) (q : N) : outcome (mp * N) :=
  match fuel with
  | O => Done (xn, q)
  | S fuel => if mp_ge xn b then obind (mp_sub (Some xn) b) (fun xn => guess_loop fuel xn b (q + 1)) else Done (xn, q)
  end.
(* src/kryptos_mp.c:1656-1685: the estimate of a digit of the quotient; xi is clipped to xn *)
Definition estimate (xn yn : mp) (n j : nat) : N :=
  let xi := Nat.min (n + j) (size xn - 1) in
  let qt := nthd xn xi in
  let qt := match xi with O => qt | S i => N.lor (shlw 128 qt 64) (nthd xn i) end in
  let qt := qt / nthd yn (n - 1) in
  if B - 1 <? qt then 0xFF else qt.
(* src/kryptos_mp.c:1697-1757: the digit and b, or 0 after 255 decrements. The fuel is the number of turns left before dec_nr is
   0xFF. *)
Fixpoint correct (fuel : nat) (xn yn : mp) (j : nat) (qt : N) : N * option mp :=
  match fuel with
  | O => (0, None)
  | S fuel =>
      let b := mp_lsh (mul_digit (assign None yn) (N.land qt (B - 1))) (64 * j) in
      if mp_lt xn b then correct fuel xn yn j (qt - 1) else (N.land qt (B - 1), Some b)
  end.
Fixpoint updq (l : list N) (i : nat) (v : N) : list N :=
  match l, i with [], _ => [] | _ :: l, O => v :: l | d :: l, S i => d :: updq l i v end.
(* src/kryptos_mp.c:1653-1797: digits j - 1 down to 0 *)
Fixpoint div_loop (j : nat) (xn yn : mp) (n : nat) (q : list N) : outcome (mp * list N) :=
  match j with
  | O => Done (xn, q)
  | S j =>
      let '(d, b) := correct 255 xn yn j (estimate xn yn n j) in
      obind (match b with Some b => mp_sub (Some xn) b | None => Done xn end) (fun xn => div_loop j xn yn n (updq q j d))
  end.
(* digits 0 .. dn of a copied to a new value *)
Definition trimmed (l : list N) : mp := let s := strip l in mkMp false (s ++ repeat 0 (new_digits (64 * length s) - length s)).
(* src/kryptos_mp.c:1464-1849 kryptos_mp_div: quotient and remainder; None: y is zero *)
Definition mp_div (x y : mp) : outcome (option (mp * mp)) :=
  if is_zero y then Done None
  else if is_zero x then Done (Some (num 0, num 0))
  else if mp_lt x y then Done (Some (num 0, assign None x))
  else
    let '(xn, yn, s) := normalize 64 (assign (Some (new_mp_digits (size x))) x) (assign None y) 0 in
    let n := sig yn in
    let m := Nat.max 1 (size xn - size yn) in
    let b := mp_lsh (assign None yn) (64 * m) in
    obind (guess_loop 255 xn b 0) (fun '(x1, qm) =>
    let again := ((qm =? 0xFF) && mp_ge x1 b)%bool in
    let '(xn, qm, m') := if again then (xn, 0, S m) else (x1, qm, m) in
    let q := updq (repeat 0 (new_digits (64 * (m + 1)))) m qm in
    obind (if mp_lt xn yn then Done (xn, q) else div_loop m' xn yn n q) (fun '(xn, q) =>
    let xn := match s with O => xn | _ => mp_rsh xn s end in
    Done (Some (match strip q with [] => mkMp false q | _ => trimmed q end, trimmed (data xn))))).
(* src/kryptos_mp.c:2608-2676 kryptos_mp_div_2p *)
Definition div_2p (x : mp) (power : nat) : outcome (mp * mp) :=
  let q := mp_rsh (assign None x) power in
  let p := mp_lsh (mkMp false (1 :: repeat 0 7)) power in
  obind (mp_sub (Some (assign None x)) (mp_mul (Some p) q)) (fun tr =>
  Done (q, match strip (data tr) with [] => new_mp_digits 8 | _ => trimmed (data tr) end)).

(* ---- modular arithmetic *)
(* src/kryptos_mp.c:2059-2117 kryptos_mp_mod; None: the division by zero leaves no value *)
Definition mp_mod (dest src : mp) : outcome (option mp) :=
  let remainder x := obind (mp_div x src) (fun qr => Done (match qr with Some (_, r) => Some r | None => None end)) in
  let copy := assign None dest in
  if neg copy
  then obind (mp_sub (Some (assign None src)) (num 1)) (fun t => remainder (mp_mul (Some (set_neg copy false)) t))
  else remainder copy.
(* the bits of the digits from the most significant down *)
Definition digit_bits (d : N) : list bool := map (fun i => N.testbit d (N.of_nat i)) (rev (seq 0 64)).
Definition bitmap (a : mp) : list bool := concat (map digit_bits (rev (data a))).
(* src/kryptos_mp.c:1264-1373 kryptos_mp_pow *)
Definition mp_pow (g e : mp) : mp :=
  fold_left (fun A (b : bool) => let A := mp_mul (Some A) A in if b then mp_mul (Some A) g else A) (bitmap e) (num 1).
(* src/kryptos_mp.c:2684-2887 kryptos_mp_me_mod_n: one step; the division by zero sets A to NULL and the next product reads it *)
Definition reduce (A n : mp) : outcome mp := obind (mp_div A n) (fun qr => match qr with Some (_, r) => Done r | None => UB end).
Definition me_step (m n : mp) (A : outcome mp) (b : bool) : outcome mp :=
  obind A (fun A => obind (reduce (mp_mul (Some A) A) n) (fun A => if b then reduce (mp_mul (Some A) m) n else Done A)).
Definition me_mod_n (m e n : mp) : outcome mp := fold_left (me_step m n) (bitmap e) (Done (num 1)).

(* ---- signed arithmetic *)
(* src/kryptos_mp.c:2211-2301 kryptos_mp_add_s *)
Definition add_s (dest src : mp) : outcome mp :=
  let dc := assign None dest in
  let sc := assign None src in
  let dz := mp_eq dc (num 0) in
  let sz := mp_eq sc (num 0) in
  if (sz && dz)%bool then Done (num 0)
  else if sz then Done dc
  else if dz then Done sc
  else
    let dn := neg dc in
    let sn := neg sc in
    let dc := set_neg dc false in
    let sc := set_neg sc false in
    if xorb dn sn
    then
      let '(dc, sc, dn) := if mp_gt dc sc then (dc, sc, dn) else (sc, dc, sn) in
      let greater := mp_gt dc sc in
      obind (mp_sub (Some dc) sc) (fun dc => Done (set_neg dc (dn && greater)%bool))
    else obind (mp_add (Some dc) sc) (fun dc => Done (set_neg dc dn)).
(* src/kryptos_mp.c:2303-2408 kryptos_mp_sub_s *)
Definition sub_s (dest src : mp) : outcome mp :=
  let dc := assign None dest in
  let sc := assign None src in
  let dz := mp_eq dc (num 0) in
  let sz := mp_eq sc (num 0) in
  if (dz && negb sz)%bool then let t := assign None sc in Done (set_neg t (negb (neg t)))
  else if (negb dz && sz)%bool then Done dest
  else if (dz && sz)%bool then Done (num 0)
  else
    let dn := neg dc in
    let sn := neg sc in
    let dc := set_neg dc false in
    let sc := set_neg sc false in
    if (Bool.eqb dn sn && mp_eq dc sc)%bool then Done (num 0)
    else
      let adds := xorb dn sn in
      let sn := if adds then sn else negb sn in
      let do_inv := ((mp_ge dc sc && dn && sn) || (mp_ge dc sc && dn && negb sn) || (mp_ge sc dc && dn && negb sn))%bool in
      obind ((if adds then mp_add else mp_sub) (Some dc) sc) (fun dc =>
      if do_inv
      then
        let dc := set_neg dc (negb (neg dc)) in
        Done (if (negb (neg dc) && negb (mp_ge sc dc && dn && negb sn))%bool then set_neg dc true else dc)
      else Done dc).
(* src/kryptos_mp.c:2550-2606 kryptos_mp_mul_s *)
Definition mul_s (dest src : mp) : mp :=
  if (mp_eq src (num 0) || mp_eq dest (num 0))%bool then num 0
  else set_neg (mp_mul (Some (set_neg (assign None dest) false)) (set_neg (assign None src) false)) (xorb (neg dest) (neg src)).
