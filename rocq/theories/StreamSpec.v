(* The published stream ciphers, written down from their documents, without reference to the model.
   States are functions from indices to numbers, words are numbers below 2^32. *)
From Verif Require Import Words EncSpec TaskModel.
Open Scope N_scope.

(* a task as the user of the library prepares it; iv None is the NULL pointer *)
Definition stream_task (id : cipher_id) (a : action) (key : list N) (iv : option (list N)) (inp : list N) : task :=
  {| t_cipher := id; t_mode := ModeNr; t_action := a;
     t_key := Some key; t_key_size := N.of_nat (length key);
     t_iv := iv; t_iv_size := match iv with None => 0 | Some v => N.of_nat (length v) end;
     t_in := Some inp; t_in_size := N.of_nat (length inp); t_arg := [] |}.

(* out is inp with the key stream ks xor-ed byte by byte *)
Definition xored_with (ks : nat -> N) (inp out : list N) : Prop :=
  length out = length inp /\ forall i, (i < length inp)%nat -> nth i out 0 = N.lxor (nth i inp 0) (ks i).

(* addition of words and rotation x <<< n *)
Definition plus (a b : N) : N := (a + b) mod 2 ^ 32.
Definition rot (x n : N) : N := (x * 2 ^ n) mod 2 ^ 32 + x / 2 ^ (32 - n).
Infix "+." := plus (at level 50, left associativity).
Infix "<<<" := rot (at level 45, left associativity).
Infix "^." := N.lxor (at level 48, left associativity).

Definition set (s : nat -> N) (i : nat) (v : N) : nat -> N := fun j => if Nat.eqb j i then v else s j.
(* word i of a byte string, least significant byte first *)
Definition le_word (b : list N) (i : nat) : N :=
  nth (4 * i) b 0 + 2 ^ 8 * nth (4 * i + 1) b 0 + 2 ^ 16 * nth (4 * i + 2) b 0 + 2 ^ 24 * nth (4 * i + 3) b 0.
(* byte i of a sequence of words, least significant byte first *)
Definition le_byte (w : nat -> N) (i : nat) : N := (w (i / 4)%nat / 2 ^ (8 * N.of_nat (i mod 4))) mod 256.

(* ---- RC4: key schedule and output *)
Definition exchange (box : N -> N) (i j : N) : N -> N := fun x => if x =? i then box j else if x =? j then box i else box x.
Definition rc4_ksa_step (key : list N) (js : N * (N -> N)) (i : N) : N * (N -> N) :=
  let '(j, box) := js in
  let j := (j + box i + nth (N.to_nat (i mod N.of_nat (length key))) key 0) mod 256 in (j, exchange box i j).
Definition rc4_ksa (key : list N) : N -> N := snd (fold_left (rc4_ksa_step key) (range 256) (0, fun i => i)).
(* i, j and S after n output bytes *)
Fixpoint rc4_state (key : list N) (n : nat) : N * N * (N -> N) :=
  match n with
  | O => (0, 0, rc4_ksa key)
  | S m => let '(i, j, box) := rc4_state key m in
           let i := (i + 1) mod 256 in
           let j := (j + box i) mod 256 in
           (i, j, exchange box i j)
  end.
Definition rc4_key_stream (key : list N) (n : nat) : N :=
  let '(i, j, box) := rc4_state key (n + 1) in box ((box i + box j) mod 256).

(* ---- ChaCha20, RFC 8439 section 2 *)
Definition quarter_round (a b c d : N) : N * N * N * N :=
  let a := a +. b in let d := d ^. a in let d := d <<< 16 in
  let c := c +. d in let b := b ^. c in let b := b <<< 12 in
  let a := a +. b in let d := d ^. a in let d := d <<< 8 in
  let c := c +. d in let b := b ^. c in let b := b <<< 7 in
  (a, b, c, d).
Definition QUARTERROUND (x y z w : nat) (s : nat -> N) : nat -> N :=
  let '(a, b, c, d) := quarter_round (s x) (s y) (s z) (s w) in
  set (set (set (set s x a) y b) z c) w d.
Definition inner_block (s : nat -> N) : nat -> N :=
  let s := QUARTERROUND 0 4 8 12 s in
  let s := QUARTERROUND 1 5 9 13 s in
  let s := QUARTERROUND 2 6 10 14 s in
  let s := QUARTERROUND 3 7 11 15 s in
  let s := QUARTERROUND 0 5 10 15 s in
  let s := QUARTERROUND 1 6 11 12 s in
  let s := QUARTERROUND 2 7 8 13 s in
  QUARTERROUND 3 4 9 14 s.
Definition chacha20_state (key nonce : list N) (counter : N) (i : nat) : N :=
  match i with
  | 0%nat => 0x61707865 | 1%nat => 0x3320646e | 2%nat => 0x79622d32 | 3%nat => 0x6b206574
  | 12%nat => counter
  | 13%nat => le_word nonce 0 | 14%nat => le_word nonce 1 | 15%nat => le_word nonce 2
  | _ => le_word key (i - 4)
  end.
Definition chacha20_block (key nonce : list N) (counter : N) : nat -> N :=
  let s := chacha20_state key nonce counter in
  le_byte (fun i => Nat.iter 10 inner_block s i +. s i).
(* byte i of the key stream that starts with block number counter *)
Definition chacha20_key_stream (key nonce : list N) (counter : N) (i : nat) : N :=
  chacha20_block key nonce ((counter + N.of_nat (i / 64)) mod 2 ^ 32) (i mod 64).

(* ---- Salsa20, D. J. Bernstein, "Salsa20 specification" *)
Definition quarterround (y0 y1 y2 y3 : N) : N * N * N * N :=
  let z1 := y1 ^. ((y0 +. y3) <<< 7) in
  let z2 := y2 ^. ((z1 +. y0) <<< 9) in
  let z3 := y3 ^. ((z2 +. z1) <<< 13) in
  let z0 := y0 ^. ((z3 +. z2) <<< 18) in
  (z0, z1, z2, z3).
(* (z_a, z_b, z_c, z_d) = quarterround(y_a, y_b, y_c, y_d) *)
Definition on_quarter (a b c d : nat) (s : nat -> N) : nat -> N :=
  let '(za, zb, zc, zd) := quarterround (s a) (s b) (s c) (s d) in
  set (set (set (set s a za) b zb) c zc) d zd.
Definition rowround (s : nat -> N) : nat -> N :=
  on_quarter 15 12 13 14 (on_quarter 10 11 8 9 (on_quarter 5 6 7 4 (on_quarter 0 1 2 3 s))).
Definition columnround (s : nat -> N) : nat -> N :=
  on_quarter 15 3 7 11 (on_quarter 10 14 2 6 (on_quarter 5 9 13 1 (on_quarter 0 4 8 12 s))).
Definition doubleround (s : nat -> N) : nat -> N := rowround (columnround s).
(* the hash function of 64 bytes *)
Definition Salsa20 (x : list N) : nat -> N :=
  le_byte (fun i => le_word x i +. Nat.iter 10 doubleround (le_word x) i).
(* the expansion function: "expand 32-byte k" and "expand 16-byte k" *)
Definition sigma : list N := [101; 120; 112; 97; 110; 100; 32; 51; 50; 45; 98; 121; 116; 101; 32; 107].
Definition tau : list N := [101; 120; 112; 97; 110; 100; 32; 49; 54; 45; 98; 121; 116; 101; 32; 107].
Definition part (l : list N) (i n : nat) : list N := firstn n (skipn i l).
Definition Salsa20_k (constants k0 k1 n : list N) : nat -> N :=
  Salsa20 (part constants 0 4 ++ k0 ++ part constants 4 4 ++ n ++ part constants 8 4 ++ k1 ++ part constants 12 4).
Definition salsa20_expand (key n : list N) : nat -> N :=
  if (length key =? 32)%nat then Salsa20_k sigma (part key 0 16) (part key 16 16) n
  else Salsa20_k tau key key n.
(* byte i of the key stream of the nonce v *)
Definition salsa20_key_stream (key v : list N) (i : nat) : N :=
  salsa20_expand key (v ++ le_bytes 8 (N.of_nat (i / 64))) (i mod 64).

(* ---- Rabbit, RFC 4503, with the byte order of the eSTREAM submission: key, iv and output blocks are
   little-endian numbers (the RFC writes the same numbers big-endian) *)
Definition bits (x : N) (hi lo : N) : N := (x / 2 ^ lo) mod 2 ^ (hi - lo + 1).
Definition rfc_A (j : nat) : N :=
  match j with
  | 0%nat | 3%nat | 6%nat => 0x4D34D34D
  | 1%nat | 4%nat | 7%nat => 0xD34D34D3
  | _ => 0x34D34D34
  end.
Record rabbit := { rX : nat -> N; rC : nat -> N; rb : N }.
Definition concat16 (hi lo : N) : N := hi * 2 ^ 16 + lo.
Definition rfc_expand (K : N) : rabbit :=
  let k := fun i => bits K (16 * N.of_nat (i mod 8) + 15) (16 * N.of_nat (i mod 8)) in
  {| rX := fun j => if Nat.even j then concat16 (k (j + 1)%nat) (k j) else concat16 (k (j + 5)%nat) (k (j + 4)%nat);
     rC := fun j => if Nat.even j then concat16 (k (j + 4)%nat) (k (j + 5)%nat) else concat16 (k j) (k (j + 1)%nat);
     rb := 0 |}.
(* 2.5: for j = 0 to 7 { temp = Cj + Aj + b; b = temp div WORDSIZE; Cj = temp mod WORDSIZE } *)
Definition rfc_counter (s : rabbit) : rabbit :=
  let '(b, C) := fold_left (fun '(b, C) j =>
      let temp := C j + rfc_A j + b in (temp / 2 ^ 32, set C j (temp mod 2 ^ 32))) (seq 0 8) (rb s, rC s) in
  {| rX := rX s; rC := C; rb := b |}.
(* 2.6: the next-state function *)
Definition rfc_G (u v : N) : N :=
  let sq := (u +. v) ^ 2 in N.lxor (sq mod 2 ^ 32) (sq / 2 ^ 32).
Definition rfc_next (s : rabbit) : rabbit :=
  let G := fun j => rfc_G (rX s j) (rC s j) in
  {| rX := fun j =>
       let p := ((j + 7) mod 8)%nat in let q := ((j + 6) mod 8)%nat in
       if Nat.even j then G j +. (G p <<< 16) +. (G q <<< 16) else G j +. (G p <<< 8) +. G q;
     rC := rC s; rb := rb s |}.
Definition rfc_iteration (s : rabbit) : rabbit := rfc_next (rfc_counter s).
Definition rfc_key_setup (K : N) : rabbit :=
  let s := Nat.iter 4 rfc_iteration (rfc_expand K) in
  {| rX := rX s; rC := fun j => N.lxor (rC s j) (rX s ((j + 4) mod 8)%nat); rb := rb s |}.
Definition rfc_iv_setup (IV : N) (s : rabbit) : rabbit :=
  let w := fun j => match (j mod 4)%nat with
                    | 0%nat => bits IV 31 0
                    | 1%nat => concat16 (bits IV 63 48) (bits IV 31 16)
                    | 2%nat => bits IV 63 32
                    | _ => concat16 (bits IV 47 32) (bits IV 15 0)
                    end in
  Nat.iter 4 rfc_iteration {| rX := rX s; rC := fun j => N.lxor (rC s j) (w j); rb := rb s |}.
(* 2.7: the 128 output bits of a state, in pieces of 16 bits *)
Definition rfc_piece (X : nat -> N) (i : nat) : N :=
  match i with
  | 0%nat => N.lxor (bits (X 0%nat) 15 0) (bits (X 5%nat) 31 16)
  | 1%nat => N.lxor (bits (X 0%nat) 31 16) (bits (X 3%nat) 15 0)
  | 2%nat => N.lxor (bits (X 2%nat) 15 0) (bits (X 7%nat) 31 16)
  | 3%nat => N.lxor (bits (X 2%nat) 31 16) (bits (X 5%nat) 15 0)
  | 4%nat => N.lxor (bits (X 4%nat) 15 0) (bits (X 1%nat) 31 16)
  | 5%nat => N.lxor (bits (X 4%nat) 31 16) (bits (X 7%nat) 15 0)
  | 6%nat => N.lxor (bits (X 6%nat) 15 0) (bits (X 3%nat) 31 16)
  | _ => N.lxor (bits (X 6%nat) 31 16) (bits (X 1%nat) 15 0)
  end.
Definition rfc_start (key : list N) (iv : option (list N)) : rabbit :=
  let s := rfc_key_setup (le_val key) in
  match iv with None => s | Some v => rfc_iv_setup (le_val v) s end.
(* byte i of the key stream *)
Definition rabbit_key_stream (key : list N) (iv : option (list N)) (i : nat) : N :=
  let s := Nat.iter (i / 16 + 1) rfc_iteration (rfc_start key iv) in
  bits (rfc_piece (rX s) (i mod 16 / 2)) (8 * N.of_nat (i mod 2) + 7) (8 * N.of_nat (i mod 2)).
