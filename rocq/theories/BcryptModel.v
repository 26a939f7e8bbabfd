(* Model of bcrypt, src/kryptos_blowfish.c:215-253, 497-913. Allocations succeed. *)
From Verif Require Import Words TaskModel ModeModel CipherBase StreamModel BlowfishModel.
From Verif Require Import EncModel.
From Coq Require Import PeanoNat.
Open Scope N_scope.

(* src/kryptos_blowfish.c:215-222: "./A...Za...z0...9" *)
Definition bc_state : list N :=
  [46; 47; 65; 66; 67; 68; 69; 70; 71; 72; 73; 74; 75; 76; 77; 78;
   79; 80; 81; 82; 83; 84; 85; 86; 87; 88; 89; 90; 97; 98; 99; 100;
   101; 102; 103; 104; 105; 106; 107; 108; 109; 110; 111; 112; 113; 114; 115; 116;
   117; 118; 119; 120; 121; 122; 48; 49; 50; 51; 52; 53; 54; 55; 56; 57].
(* src/kryptos_blowfish.c:224-253: 255 entries *)
Definition bc_state_1 : list N :=
  [255; 255; 255; 255; 255; 255; 255; 255; 255; 255; 255; 255; 255; 255; 255; 255;
   255; 255; 255; 255; 255; 255; 255; 255; 255; 255; 255; 255; 255; 255; 255; 255;
   255; 255; 255; 255; 255; 255; 255; 255; 255; 255; 255; 255; 255; 255; 0; 1;
   54; 55; 56; 57; 58; 59; 60; 61; 62; 63; 255; 255; 255; 0; 255; 255;
   255; 2; 3; 4; 5; 6; 7; 8; 9; 10; 11; 12; 13; 14; 15; 16;
   17; 18; 19; 20; 21; 22; 23; 24; 25; 26; 27; 0; 0; 0; 0; 0;
   0; 28; 29; 30; 31; 32; 33; 34; 35; 36; 37; 38; 39; 40; 41; 42;
   43; 44; 45; 46; 47; 48; 49; 50; 51; 52; 53; 255; 255; 255; 255; 255;
   255; 255; 255; 255; 255; 255; 255; 255; 255; 255; 255; 255; 255; 255; 255; 255;
   255; 255; 255; 255; 255; 255; 255; 255; 255; 255; 255; 255; 255; 255; 255; 255;
   255; 255; 255; 255; 255; 255; 255; 255; 255; 255; 255; 255; 255; 255; 255; 255;
   255; 255; 255; 255; 255; 255; 255; 255; 255; 255; 255; 255; 255; 255; 255; 255;
   255; 255; 255; 255; 255; 255; 255; 255; 255; 255; 255; 255; 255; 255; 255; 255;
   255; 255; 255; 255; 255; 255; 255; 255; 255; 255; 255; 255; 255; 255; 255; 255;
   255; 255; 255; 255; 255; 255; 255; 255; 255; 255; 255; 255; 255; 255; 255; 255;
   255; 255; 255; 255; 255; 255; 255; 255; 255; 255; 255; 255; 255; 255; 255].

(* src/kryptos_blowfish.c:725-728, 783-786: a pointer into a buffer of n bytes that returns to its start at the end *)
Definition bc_wrap (n c : nat) : nat := if Nat.eqb (S c) n then 0%nat else S c.
(* src/kryptos_blowfish.c:721-729: the next word of the password; c = s_c - password *)
Definition bc_word (pw : list N) (c : nat) : N * nat :=
  fold_left (fun s (_ : nat) => let '(w, c) := s in (or (shlw 32 w 8) (nth c pw 0), bc_wrap (length pw) c)) (seq 0 4) (0, c).
(* src/kryptos_blowfish.c:717-736 *)
Definition bc_whiten (init : bool) (pw P : list N) : list N :=
  fst (fold_left (fun s i => let '(P, c) := s in let '(w, c) := bc_word pw c in
                             (upd P i (if init then xor (nth i blowfish_parray 0) w else xor (nth i P 0) w), c)) (seq 0 18) (P, 0%nat)).
(* src/kryptos_blowfish.c:777-787: c = s_c - salt *)
Definition bc_mix (salt pl : list N) (c : nat) : list N * nat :=
  fold_left (fun s i => let '(pl, c) := s in (upd pl i (xor (nth i pl 0) (nth c salt 0)), bc_wrap 16 c)) (seq 0 8) (pl, c).
(* src/kryptos_blowfish.c:751-788: one turn of the loop *)
Definition bc_step (salt : list N) (s : bf_keys * list N * nat) (i : nat) : bf_keys * list N * nat :=
  let '(k, pl, c) := s in
  let pl := blowfish_block_encrypt k pl in
  let k := blowfish_put k i (be_val (slice pl 0 4)) (be_val (slice pl 4 4)) in
  let '(pl, c) := bc_mix salt pl c in
  (k, pl, c).
(* src/kryptos_blowfish.c:710-792 kryptos_bcrypt_puff_up *)
Definition bc_puff_up (pw salt : list N) (k : bf_keys) (init : bool) : bf_keys :=
  let P := bc_whiten init pw (bf_P k) in
  let k := if init then blowfish_init P else {| bf_S1 := bf_S1 k; bf_S2 := bf_S2 k; bf_S3 := bf_S3 k; bf_S4 := bf_S4 k; bf_P := P |} in
  fst (fst (fold_left (bc_step salt) (seq 0 521) (k, slice salt 0 8, 8%nat))).
(* src/kryptos_blowfish.c:682-708 kryptos_eks_blowfish_setup; the first call does not read the uninitialised sub-keys *)
Definition bc_setup (cost : N) (salt pw : list N) : bf_keys :=
  let all_zeros := repeat 0 16 in
  N.iter (2 ^ cost) (fun k => bc_puff_up salt all_zeros (bc_puff_up pw all_zeros k false) false) (bc_puff_up pw salt (blowfish_init (repeat 0 18)) true).

(* src/kryptos_blowfish.c:508-513 "OrpheanBeholderScryDoubt" *)
Definition bc_magic : list N := [79; 114; 112; 104; 101; 97; 110; 66; 101; 104; 111; 108; 100; 101; 114; 83; 99; 114; 121; 68; 111; 117; 98; 116].
(* src/kryptos_blowfish.c:537-572: eight uses of the macro, which encrypts the three blocks eight times *)
Definition bc_ctext (k : bf_keys) : list N :=
  Nat.iter 64 (fun c => blowfish_block_encrypt k (slice c 0 8) ++ blowfish_block_encrypt k (slice c 8 8) ++ blowfish_block_encrypt k (slice c 16 8)) bc_magic.

(* src/kryptos_blowfish.c:831-834 *)
Definition bc_block_chars (block : N) : list N :=
  [nthN bc_state (N.shiftr (N.land block 0x00FC0000) 18);
   nthN bc_state (N.shiftr (N.land block 0x0003F000) 12);
   nthN bc_state (N.shiftr (N.land block 0x00000FC0) 6);
   nthN bc_state (N.land block 0x0000003F)].
(* src/kryptos_blowfish.c:816-843: out_p advances by 4 - pad_size and the pad characters overwrite the rest of the group *)
Fixpoint bc_encode (l : list N) : list N :=
  match l with
  | [] => []
  | [a] => put_pad 2 (bc_block_chars (N.shiftl (gather8 [a]) 16))
  | [a; b] => put_pad 1 (bc_block_chars (N.shiftl (gather8 [a; b]) 8))
  | a :: b :: c :: r => bc_block_chars (gather8 [a; b; c]) ++ bc_encode r
  end.
(* src/kryptos_blowfish.c:590-597 sprintf with "$2a$%.2d$", for a cost of at most 99 *)
Definition bc_prefix (cost : N) : list N := [36; 50; 97; 36; 48 + cost / 10; 48 + cost mod 10; 36].
(* src/kryptos_blowfish.c:497-626 kryptos_bcrypt; want = the pointer hash_size is not null. A null or short salt is read *)
Definition bcrypt (cost : Z) (salt : option (list N)) (salt_size : N) (password : option (list N)) (password_size : N) (want : bool) : outcome (option (list N)) :=
  if ((cost <? 4)%Z || (31 <? cost)%Z || negb (salt_size =? 16) || match password with None => true | Some _ => false end || (72 <? password_size) || negb want)%bool
  then Done None
  else
    obind (buf password password_size) (fun pw =>
    obind (buf salt 16) (fun salt =>
    let k := bc_setup (Z.to_N cost) salt (pw ++ [0]) in
    let salt64 := bc_encode salt in
    let ctext64 := bc_encode (firstn 23 (bc_ctext k)) in
    Done (Some (bc_prefix (Z.to_N cost) ++ firstn (length salt64 - 2) salt64 ++ firstn (length ctext64 - 1) ctext64)))).

(* src/kryptos_blowfish.c:869-872: the pad characters at the end of the buffer; rl = what lies before its end, in reverse order *)
Fixpoint bc_count_pad (rl : list N) : outcome N :=
  match rl with
  | [] => UB
  | c :: r => if c =? 61 then obind (bc_count_pad r) (fun n => Done (n + 1)) else Done 0
  end.
(* src/kryptos_blowfish.c:880-904: left = out_end - out_p, l = what lies at bp. The buffer has 22 bytes here and bp moves in fours, so bp is never
   bp_end; reading past the end of the hash or of the table is UB *)
Fixpoint bc_decode_loop (left : N) (l : list N) : outcome (list N) :=
  if left =? 0 then Done []
  else
    match l with
    | c0 :: c1 :: c2 :: c3 :: r =>
        obind (rd bc_state_1 (eq_to_nul c0)) (fun v0 =>
        obind (rd bc_state_1 (eq_to_nul c1)) (fun v1 =>
        obind (rd bc_state_1 (eq_to_nul c2)) (fun v2 =>
        obind (rd bc_state_1 (eq_to_nul c3)) (fun v3 =>
          let block := N.lor (N.lor (N.lor (N.shiftl v0 18) (N.shiftl v1 12)) (N.shiftl v2 6)) v3 in
          let b0 := N.land (N.shiftr (N.land block 0x00FF0000) 16) 0xFF in
          let b1 := N.land (N.shiftr (N.land block 0x0000FF00) 8) 0xFF in
          let b2 := N.land block 0x000000FF in
          if left =? 1 then Done [b0]
          else if left =? 2 then Done [b0; b1]
          else obind (bc_decode_loop (left - 3) r) (fun w => Done (b0 :: b1 :: b2 :: w))))))
    | _ => UB
    end.
(* src/kryptos_blowfish.c:853-913 kryptos_bcrypt_decode_buffer (&hash[7], 22, ...). With more than 16 pad characters the size underflows, and
   memory outside the allocation is written: UB *)
Definition bc_decode (hash : list N) : outcome (list N) :=
  if Nat.ltb (length hash) 29 then UB
  else
    obind (bc_count_pad (rev (firstn 29 hash))) (fun pad =>
    if 16 <? pad then UB else bc_decode_loop (16 - pad) (skipn 7 hash)).
(* src/kryptos_blowfish.c:628-680 kryptos_bcrypt_verify: what is returned. hash_size is the size of the hash *)
Definition bc_digit (c : N) : bool := ((48 <=? c) && (c <=? 57))%bool.
Definition bcrypt_verify (password : option (list N)) (password_size : N) (hash : option (list N)) : outcome bool :=
  match password, hash with
  | Some _, Some h =>
      let at_ i := nth i h 0 in
      if Nat.leb (length h) 22 then Done false
      else if negb ((at_ 0%nat =? 36) && (at_ 1%nat =? 50) && (at_ 2%nat =? 97)) then Done false
      else if negb ((at_ 3%nat =? 36) && bc_digit (at_ 4%nat) && bc_digit (at_ 5%nat) && (at_ 6%nat =? 36)) then Done false
      else
        let cost := (10 * (Z.of_N (at_ 4%nat) - 48) + (Z.of_N (at_ 5%nat) - 48))%Z in
        if ((cost <? 4)%Z || (31 <? cost)%Z)%bool then Done false
        else
          obind (bc_decode h) (fun salt =>
          obind (bcrypt cost (Some salt) (N.of_nat (length salt)) password password_size true) (fun t =>
          match t with
          | None => Done false
          | Some t => Done (Nat.eqb (length t) (length h) && eqb_list t h)%bool
          end))
  | _, _ => Done false
  end.
