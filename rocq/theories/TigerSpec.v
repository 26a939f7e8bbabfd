(* The hash function Tiger as in Anderson, Biham, "Tiger: a fast new hash function". Words are numbers below 2^64. *)
From Verif Require Import Words EncSpec HashSpec TigerTables.
From Coq Require Import PeanoNat ZArith.
Open Scope N_scope.

Definition plus64 (x y : N) : N := (x + y) mod 2 ^ 64.
Definition times64 (x y : N) : N := (x * y) mod 2 ^ 64.
Definition minus64 (x y : N) : N := Z.to_N ((Z.of_N x - Z.of_N y) mod 2 ^ 64)%Z.
Definition not64 (x : N) : N := N.lxor x (2 ^ 64 - 1).
(* byte n, counted from the least significant *)
Definition byte_of (n : N) (x : N) : N := (x / 256 ^ n) mod 256.

(* one round; the roles of a, b, c move on *)
Definition Tiger_round (boxes : list (list N)) (mul : N) (q : N * N * N) (x : N) : N * N * N :=
  let '(a, b, c) := q in
  let t (n : nat) (i : N) := nth (N.to_nat i) (nth (n - 1) boxes []) 0 in
  let c := N.lxor c x in
  let a := minus64 a (t 1%nat (byte_of 0 c) ^. t 2%nat (byte_of 2 c) ^. t 3%nat (byte_of 4 c) ^. t 4%nat (byte_of 6 c)) in
  let b := times64 (plus64 b (t 4%nat (byte_of 1 c) ^. t 3%nat (byte_of 3 c) ^. t 2%nat (byte_of 5 c) ^. t 1%nat (byte_of 7 c))) mul in
  (b, c, a).
Definition replace_word (xs : list N) (i : nat) (y : N) : list N := firstn i xs ++ y :: skipn (S i) xs.
Definition schedule_lines : list (nat * (list N -> N)) :=
  let x i (xs : list N) := nth i xs 0 in
  [(0%nat, fun w => minus64 (x 0%nat w) (x 7%nat w ^. 0xA5A5A5A5A5A5A5A5));
   (1%nat, fun w => x 1%nat w ^. x 0%nat w);
   (2%nat, fun w => plus64 (x 2%nat w) (x 1%nat w));
   (3%nat, fun w => minus64 (x 3%nat w) (x 2%nat w ^. (not64 (x 1%nat w) * 2 ^ 19) mod 2 ^ 64));
   (4%nat, fun w => x 4%nat w ^. x 3%nat w);
   (5%nat, fun w => plus64 (x 5%nat w) (x 4%nat w));
   (6%nat, fun w => minus64 (x 6%nat w) (x 5%nat w ^. not64 (x 4%nat w) / 2 ^ 23));
   (7%nat, fun w => x 7%nat w ^. x 6%nat w);
   (0%nat, fun w => plus64 (x 0%nat w) (x 7%nat w));
   (1%nat, fun w => minus64 (x 1%nat w) (x 0%nat w ^. (not64 (x 7%nat w) * 2 ^ 19) mod 2 ^ 64));
   (2%nat, fun w => x 2%nat w ^. x 1%nat w);
   (3%nat, fun w => plus64 (x 3%nat w) (x 2%nat w));
   (4%nat, fun w => minus64 (x 4%nat w) (x 3%nat w ^. not64 (x 2%nat w) / 2 ^ 23));
   (5%nat, fun w => x 5%nat w ^. x 4%nat w);
   (6%nat, fun w => plus64 (x 6%nat w) (x 5%nat w));
   (7%nat, fun w => minus64 (x 7%nat w) (x 6%nat w ^. 0x0123456789ABCDEF))].
Definition key_schedule (xs : list N) : list N := fold_left (fun w line => replace_word w (fst line) (snd line w)) schedule_lines xs.
(* three passes of eight rounds *)
Definition Tiger_compress (boxes : list (list N)) (st : N * N * N) (x : list N) : N * N * N :=
  let '(a0, b0, c0) := st in
  let x2 := key_schedule x in let x3 := key_schedule x2 in
  let '(a, b, c) := fold_left (Tiger_round boxes 9) x3 (fold_left (Tiger_round boxes 7) x2 (fold_left (Tiger_round boxes 5) x (a0, b0, c0))) in
  (a ^. a0, minus64 b b0, plus64 c c0).
Definition Tiger_init : N * N * N := (0x0123456789ABCDEF, 0xFEDCBA9876543210, 0xF096A5B4C3B2E187).

(* the boxes t1 .. t4 of the paper's appendix *)
Definition Tiger_boxes : list (list N) := [tiger_t1; tiger_t2; tiger_t3; tiger_t4].

Definition Tiger_block (boxes : list (list N)) (st block : list N) : list N :=
  match st with
  | [a; b; c] => let '(a, b, c) := Tiger_compress boxes (a, b, c) (le_words 8 block) in [a; b; c]
  | _ => st
  end.
Definition TIGER (m : list N) : list N :=
  le_string 8 (iterate 64 (Tiger_block Tiger_boxes) [0x0123456789ABCDEF; 0xFEDCBA9876543210; 0xF096A5B4C3B2E187] (padded 64 8 0x01 (le_bytes 8) m)).
