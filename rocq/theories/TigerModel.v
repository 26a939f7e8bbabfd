(* Model of src/kryptos_tiger.c: the compression; the tables are in TigerTables.v, the frame is in HashModel.v. *)
From Verif Require Import Words TaskModel CipherBase StreamModel HashModel TigerTables.
Open Scope N_scope.

(* src/kryptos_tiger.c:346-353 kryptos_tiger_c_0 .. kryptos_tiger_c_7 *)
Definition tiger_c (i : nat) (c : N) : N :=
  match i with
  | 0%nat => and c 0xFF
  | 7%nat => shr c 56
  | _ => shr (and c (N.shiftl 0xFF (8 * N.of_nat i))) (8 * N.of_nat i)
  end.
(* src/kryptos_tiger.c:380-387 kryptos_tiger_rev64 *)
Definition tiger_rev64 (x : N) : N :=
  or (or (or (or (or (or (or (shlw 64 (tiger_c 0 x) 56) (shlw 64 (tiger_c 1 x) 48)) (shlw 64 (tiger_c 2 x) 40)) (shlw 64 (tiger_c 3 x) 32))
    (shlw 64 (tiger_c 4 x) 24)) (shlw 64 (tiger_c 5 x) 16)) (shlw 64 (tiger_c 6 x) 8)) (tiger_c 7 x).
(* src/kryptos_tiger.c:337-344 kryptos_tiger_round. v holds the variables a, b, c; i, j, k are the positions of the ones given for
   the macro parameters a, b, c. *)
Definition tiger_round (v : list N) (i j k : nat) (x m : N) : list N :=
  let v := upd v k (xor (nth k v 0) x) in
  let c := nth k v 0 in
  let v := upd v i (subw 64 (nth i v 0)
    (xor (xor (xor (nthN tiger_t1 (tiger_c 0 c)) (nthN tiger_t2 (tiger_c 2 c))) (nthN tiger_t3 (tiger_c 4 c))) (nthN tiger_t4 (tiger_c 6 c)))) in
  let v := upd v j (addw 64 (nth j v 0)
    (xor (xor (xor (nthN tiger_t4 (tiger_c 1 c)) (nthN tiger_t3 (tiger_c 3 c))) (nthN tiger_t2 (tiger_c 5 c))) (nthN tiger_t1 (tiger_c 7 c)))) in
  upd v j (mulw 64 (nth j v 0) m).
(* src/kryptos_tiger.c:326-335 kryptos_tiger_pass *)
Definition tiger_pass (v : list N) (a b c : nat) (x : list N) (m : N) : list N :=
  let v := tiger_round v a b c (nth 0 x 0) m in
  let v := tiger_round v b c a (nth 1 x 0) m in
  let v := tiger_round v c a b (nth 2 x 0) m in
  let v := tiger_round v a b c (nth 3 x 0) m in
  let v := tiger_round v b c a (nth 4 x 0) m in
  let v := tiger_round v c a b (nth 5 x 0) m in
  let v := tiger_round v a b c (nth 6 x 0) m in
  tiger_round v b c a (nth 7 x 0) m.
(* src/kryptos_tiger.c:355-372 kryptos_tiger_key_sched: the sixteen assignments x[i] = e in the order of the code *)
Definition tiger_key_steps : list (nat * (list N -> N)) :=
  [(0%nat, fun x => subw 64 (nth 0 x 0) (xor (nth 7 x 0) 0xA5A5A5A5A5A5A5A5));
   (1%nat, fun x => xor (nth 1 x 0) (nth 0 x 0));
   (2%nat, fun x => addw 64 (nth 2 x 0) (nth 1 x 0));
   (3%nat, fun x => subw 64 (nth 3 x 0) (xor (nth 2 x 0) (shlw 64 (notw 64 (nth 1 x 0)) 19)));
   (4%nat, fun x => xor (nth 4 x 0) (nth 3 x 0));
   (5%nat, fun x => addw 64 (nth 5 x 0) (nth 4 x 0));
   (6%nat, fun x => subw 64 (nth 6 x 0) (xor (nth 5 x 0) (shr (notw 64 (nth 4 x 0)) 23)));
   (7%nat, fun x => xor (nth 7 x 0) (nth 6 x 0));
   (0%nat, fun x => addw 64 (nth 0 x 0) (nth 7 x 0));
   (1%nat, fun x => subw 64 (nth 1 x 0) (xor (nth 0 x 0) (shlw 64 (notw 64 (nth 7 x 0)) 19)));
   (2%nat, fun x => xor (nth 2 x 0) (nth 1 x 0));
   (3%nat, fun x => addw 64 (nth 3 x 0) (nth 2 x 0));
   (4%nat, fun x => subw 64 (nth 4 x 0) (xor (nth 3 x 0) (shr (notw 64 (nth 2 x 0)) 23)));
   (5%nat, fun x => xor (nth 5 x 0) (nth 4 x 0));
   (6%nat, fun x => addw 64 (nth 6 x 0) (nth 5 x 0));
   (7%nat, fun x => subw 64 (nth 7 x 0) (xor (nth 6 x 0) 0x0123456789ABCDEF))].
Definition tiger_key_sched (x : list N) : list N := fold_left (fun x s => upd x (fst s) (snd s x)) tiger_key_steps x.
(* src/kryptos_tiger.c:310-324, 374-378 kryptos_tiger_computation. The block array is left with the last key schedule; it is
   loaded anew before it is read again. *)
Definition tiger_comp (st x : list N) : list N :=
  let v := tiger_pass st 0 1 2 x 5 in
  let x := tiger_key_sched x in
  let v := tiger_pass v 2 0 1 x 7 in
  let x := tiger_key_sched x in
  let v := tiger_pass v 1 2 0 x 9 in
  [xor (nth 0 v 0) (nth 0 st 0); subw 64 (nth 1 v 0) (nth 1 st 0); addw 64 (nth 2 v 0) (nth 2 st 0)].
(* src/kryptos_tiger.c:511-515 *)
Definition tiger_fix (blk : list N) : list N :=
  let blk := upd blk 6 (tiger_rev64 (nth 6 blk 0)) in upd blk 7 (tiger_rev64 (nth 7 blk 0)).
(* src/kryptos_tiger.c:290-306, 494-499 (init), 501-538, and 434-457, 468-491 the output: the state words least significant byte first, which is
   written here as the reversed words most significant byte first *)
Definition tiger : hash_params :=
  mkHash 8 8 0x01 56 tiger_fix (map tiger_rev64) [0x0123456789ABCDEF; 0xFEDCBA9876543210; 0xF096A5B4C3B2E187] tiger_comp (map tiger_rev64).
