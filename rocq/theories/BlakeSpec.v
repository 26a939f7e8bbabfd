(* BLAKE2 as in RFC 7693. Arithmetic is on natural numbers below 2^w, arrays are functions from indices. *)
From Coq Require Import List NArith Arith.
Import ListNotations.
Open Scope N_scope.

(* 2.3: x >>> n on w bits *)
Definition ror (w x n : N) : N := x / 2 ^ n + x mod 2 ^ n * 2 ^ (w - n).
Definition assign (v : nat -> N) (i : nat) (x : N) : nat -> N := fun j => if (j =? i)%nat then x else v j.
(* 3.1: the mixing function; R1 .. R4 are the rotation constants *)
Definition mix (w R1 R2 R3 R4 : N) (v : nat -> N) (a b c d : nat) (x y : N) : nat -> N :=
  let v := assign v a ((v a + v b + x) mod 2 ^ w) in
  let v := assign v d (ror w (N.lxor (v d) (v a)) R1) in
  let v := assign v c ((v c + v d) mod 2 ^ w) in
  let v := assign v b (ror w (N.lxor (v b) (v c)) R2) in
  let v := assign v a ((v a + v b + y) mod 2 ^ w) in
  let v := assign v d (ror w (N.lxor (v d) (v a)) R3) in
  let v := assign v c ((v c + v d) mod 2 ^ w) in
  assign v b (ror w (N.lxor (v b) (v c)) R4).
(* 2.1: BLAKE2b and BLAKE2s *)
Record variant := mkVariant { V_w : N; V_r : nat; V_R1 : N; V_R2 : N; V_R3 : N; V_R4 : N; V_IV : list N; V_max : nat }.
(* 2.7, 2.6 *)
Definition SIGMA : list (list nat) := (
  [[ 0;  1;  2;  3;  4;  5;  6;  7;  8;  9; 10; 11; 12; 13; 14; 15];
   [14; 10;  4;  8;  9; 15; 13;  6;  1; 12;  0;  2; 11;  7;  5;  3];
   [11;  8; 12;  0;  5;  2; 15; 13; 10; 14;  3;  6;  7;  1;  9;  4];
   [ 7;  9;  3;  1; 13; 12; 11; 14;  2;  6;  5; 10;  4;  0; 15;  8];
   [ 9;  0;  5;  7;  2;  4; 10; 15; 14;  1; 11; 12;  6;  8;  3; 13];
   [ 2; 12;  6; 10;  0; 11;  8;  3;  4; 13;  7;  5; 15; 14;  1;  9];
   [12;  5;  1; 15; 14; 13;  4; 10;  0;  7;  6;  3;  9;  2;  8; 11];
   [13; 11;  7; 14; 12;  1;  3;  9;  5;  0; 15;  4;  8;  6;  2; 10];
   [ 6; 15; 14;  9; 11;  3;  0;  8; 12;  2; 13;  7;  1;  4; 10;  5];
   [10;  2;  8;  4;  7;  6;  1;  5; 15; 11;  9; 14;  3; 12; 13;  0]])%nat.
(* the fractional parts of the square roots of the first eight primes: IV[i] = floor(2^w frac(sqrt(prime(i+1)))) *)
Definition root_fraction (w prime : N) : N := N.sqrt (prime * 2 ^ (2 * w)) mod 2 ^ w.
Definition IV (w : N) : list N := map (root_fraction w) [2; 3; 5; 7; 11; 13; 17; 19].
Definition BLAKE2b := mkVariant 64 12 32 24 16 63 (IV 64) 64.
Definition BLAKE2s := mkVariant 32 10 16 12 8 7 (IV 32) 32.
(* bytes of a word, of a block *)
Definition word_bytes (V : variant) : nat := N.to_nat (V_w V / 8).
Definition block_bytes (V : variant) : nat := 16 * word_bytes V.
(* 2.4: little-endian words *)
Fixpoint little_endian (l : list N) : N := match l with [] => 0 | b :: r => b + 256 * little_endian r end.
Definition word_at (V : variant) (d : list N) (i : nat) : N := little_endian (firstn (word_bytes V) (skipn (word_bytes V * i) d)).
(* 3.2: the compression function; the block is given by its bytes *)
Definition compress (V : variant) (h : nat -> N) (block : list N) (t : N) (f : bool) : nat -> N :=
  let m i := word_at V block i in
  let v i := if (i <? 8)%nat then h i else nth (i - 8) (V_IV V) 0 in
  let v := assign v 12 (N.lxor (v 12%nat) (t mod 2 ^ V_w V)) in
  let v := assign v 13 (N.lxor (v 13%nat) (t / 2 ^ V_w V)) in
  let v := if f then assign v 14 (N.lxor (v 14%nat) (2 ^ V_w V - 1)) else v in
  let G := mix (V_w V) (V_R1 V) (V_R2 V) (V_R3 V) (V_R4 V) in
  let round v i :=
    let s j := nth j (nth (i mod 10) SIGMA []) 0%nat in
    let v := G v 0%nat 4%nat  8%nat 12%nat (m (s  0%nat)) (m (s  1%nat)) in
    let v := G v 1%nat 5%nat  9%nat 13%nat (m (s  2%nat)) (m (s  3%nat)) in
    let v := G v 2%nat 6%nat 10%nat 14%nat (m (s  4%nat)) (m (s  5%nat)) in
    let v := G v 3%nat 7%nat 11%nat 15%nat (m (s  6%nat)) (m (s  7%nat)) in
    let v := G v 0%nat 5%nat 10%nat 15%nat (m (s  8%nat)) (m (s  9%nat)) in
    let v := G v 1%nat 6%nat 11%nat 12%nat (m (s 10%nat)) (m (s 11%nat)) in
    let v := G v 2%nat 7%nat  8%nat 13%nat (m (s 12%nat)) (m (s 13%nat)) in
    G v 3%nat 4%nat 9%nat 14%nat (m (s 14%nat)) (m (s 15%nat)) in
  let v := fold_left round (seq 0 (V_r V)) v in
  fun i => N.lxor (h i) (N.lxor (v i) (v (i + 8)%nat)).
(* 3.3: the blocks d[0 .. dd-1]: the key padded with zeros to a block if there is one, the message padded with zeros to whole blocks;
   without key and message one block of zeros *)
Definition fill (bb : nat) (l : list N) : list N := l ++ repeat 0 ((bb - length l mod bb) mod bb).
Definition data (V : variant) (key message : list N) : list N :=
  match key, message with
  | [], [] => repeat 0 (block_bytes V)
  | [], _ => fill (block_bytes V) message
  | _, _ => fill (block_bytes V) key ++ fill (block_bytes V) message
  end.
Definition BLAKE2 (V : variant) (nn : nat) (key message : list N) : list N :=
  let bb := block_bytes V in
  let kk := length key in
  let ll := length message in
  let d := data V key message in
  let dd := (length d / bb)%nat in
  let block i := firstn bb (skipn (bb * i) d) in
  let h i := nth i (V_IV V) 0 in
  let h := assign h 0 (N.lxor (N.lxor (N.lxor (h 0%nat) 0x01010000) (N.of_nat kk * 2 ^ 8)) (N.of_nat nn)) in
  let h := fold_left (fun h i => compress V h (block i) (N.of_nat ((i + 1) * bb)) false) (seq 0 (dd - 1)) h in
  let h := compress V h (block (dd - 1)%nat) (N.of_nat (if (kk =? 0)%nat then ll else ll + bb)) true in
  map (fun j => h (j / word_bytes V)%nat / 256 ^ N.of_nat (j mod word_bytes V) mod 256) (seq 0 nn).
