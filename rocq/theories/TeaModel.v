(* TEA and XTEA. *)
From Verif Require Import Words TaskModel ModeModel CipherBase.
Open Scope N_scope.

(* src/kryptos_tea.c:15 KRYPTOS_TEA_DELTA, src/kryptos_xtea.c:21 KRYPTOS_XTEA_DELTA *)
Definition tea_delta : N := 0x9E3779B9.

(* src/kryptos_tea.c:64-67, src/kryptos_xtea.c:80-83: k[0..3] *)
Definition tea_key (key : list N) : list N := load_be 4 4 key.

(* src/kryptos_tea.c:72-76, one iteration on (y, z, sum) *)
Definition tea_enc_round (k : list N) (s : N * N * N) : N * N * N :=
  let '(y, z, sum) := s in
  let sum := add32 sum tea_delta in
  let y := add32 y (xor (xor (add32 (shl32 z 4) (nth 0 k 0)) (add32 z sum)) (add32 (shr z 5) (nth 1 k 0))) in
  let z := add32 z (xor (xor (add32 (shl32 y 4) (nth 2 k 0)) (add32 y sum)) (add32 (shr y 5) (nth 3 k 0))) in
  (y, z, sum).

(* src/kryptos_tea.c:59-84 kryptos_tea_block_encryption *)
Definition tea_encrypt (key : list N) : list N -> list N :=
  blk_be 4 2 (on2 (fun '(y, z) =>
    let '(y, z, _) := Nat.iter 32 (tea_enc_round (tea_key key)) (y, z, 0) in (y, z))).

(* src/kryptos_tea.c:99-103, one iteration *)
Definition tea_dec_round (k : list N) (s : N * N * N) : N * N * N :=
  let '(y, z, sum) := s in
  let z := sub32 z (xor (xor (add32 (shl32 y 4) (nth 2 k 0)) (add32 y sum)) (add32 (shr y 5) (nth 3 k 0))) in
  let y := sub32 y (xor (xor (add32 (shl32 z 4) (nth 0 k 0)) (add32 z sum)) (add32 (shr z 5) (nth 1 k 0))) in
  (y, z, sub32 sum tea_delta).

(* src/kryptos_tea.c:86-111 kryptos_tea_block_decryption *)
Definition tea_decrypt (key : list N) : list N -> list N :=
  blk_be 4 2 (on2 (fun '(y, z) =>
    let '(y, z, _) := Nat.iter 32 (tea_dec_round (tea_key key)) (y, z, shl32 tea_delta 5) in (y, z))).

(* src/kryptos_tea.c:29-57 *)
Definition tea : blockcipher :=
  {| bc_id := TEA; bc_bs := 8;
     bc_check := fun key => if Nat.eqb (length key) 16 then Done Success else Done KeyError;
     bc_enc := tea_encrypt; bc_dec := tea_decrypt; bc_gcm := GcmNoSupport |}.

(* src/kryptos_xtea.c:85-89, one iteration on (v[0], v[1], sum) *)
Definition xtea_enc_round (k : list N) (s : N * N * N) : N * N * N :=
  let '(v0, v1, sum) := s in
  let v0 := add32 v0 (xor (add32 (xor (shl32 v1 4) (shr v1 5)) v1) (add32 sum (nthN k (and sum 3)))) in
  let sum := add32 sum tea_delta in
  let v1 := add32 v1 (xor (add32 (xor (shl32 v0 4) (shr v0 5)) v0) (add32 sum (nthN k (and (shr sum 11) 3)))) in
  (v0, v1, sum).

(* src/kryptos_xtea.c:73-99 kryptos_xtea_block_encrypt *)
Definition xtea_encrypt (rounds : Z) (key : list N) : list N -> list N :=
  blk_be 4 2 (on2 (fun '(a, b) =>
    let '(a, b, _) := Nat.iter (Z.to_nat rounds) (xtea_enc_round (tea_key key)) (a, b, 0) in (a, b))).

(* src/kryptos_xtea.c:113-117, one iteration *)
Definition xtea_dec_round (k : list N) (s : N * N * N) : N * N * N :=
  let '(v0, v1, sum) := s in
  let v1 := sub32 v1 (xor (add32 (xor (shl32 v0 4) (shr v0 5)) v0) (add32 sum (nthN k (and (shr sum 11) 3)))) in
  let sum := sub32 sum tea_delta in
  let v0 := sub32 v0 (xor (add32 (xor (shl32 v1 4) (shr v1 5)) v1) (add32 sum (nthN k (and sum 3)))) in
  (v0, v1, sum).

(* src/kryptos_xtea.c:101-127 kryptos_xtea_block_decrypt; the product is computed in 32 bits (line 103) *)
Definition xtea_decrypt (rounds : Z) (key : list N) : list N -> list N :=
  blk_be 4 2 (on2 (fun '(a, b) =>
    let '(a, b, _) := Nat.iter (Z.to_nat rounds) (xtea_dec_round (tea_key key))
                        (a, b, mul32 tea_delta (Z.to_N rounds)) in (a, b))).

(* src/kryptos_xtea.c:29-71; arg[0] is a pointer to the caller's int rounds, None when NULL *)
Definition xtea (rounds : option Z) : blockcipher :=
  {| bc_id := XTEA; bc_bs := 8;
     bc_check := fun key =>
       if negb (Nat.eqb (length key) 16) then Done KeyError
       else match rounds with
            | None => Done InvalidParams
            | Some r => if (r <=? 0)%Z then Done InvalidParams else Done Success
            end;
     bc_enc := fun key => match rounds with Some r => xtea_encrypt r key | None => fun x => x end;
     bc_dec := fun key => match rounds with Some r => xtea_decrypt r key | None => fun x => x end;
     bc_gcm := GcmNoSupport |}.
