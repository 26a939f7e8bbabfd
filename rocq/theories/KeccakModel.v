(* KECCAK and SHA-3. Source: src/kryptos_keccak.c, src/kryptos_types.h:822-849. Allocation failures are not modelled; message sizes are
   below 2^60, so that the size_t arithmetic does not wrap. *)
From Verif Require Import Words TaskModel CipherBase StreamModel HashModel.
Open Scope N_scope.

(* src/kryptos_keccak.c:21 keccak_rot *)
Definition keccak_rot (a r : N) : N := or (shlw 64 a r) (shr a (64 - r)).
(* src/kryptos_keccak.c:85-89 kryptos_keccak_rot_offset *)
Definition keccak_rot_off : list N := [1; 3; 6; 10; 15; 21; 28; 36; 45; 55; 2; 14; 27; 41; 56; 8; 25; 43; 62; 18; 39; 61; 20; 44].
(* src/kryptos_keccak.c:91-100 kryptos_keccak_rc *)
Definition keccak_rc : list N :=
  [0x0000000000000001; 0x0000000000008082; 0x800000000000808A; 0x8000000080008000; 0x000000000000808B; 0x0000000080000001;
   0x8000000080008081; 0x8000000000008009; 0x000000000000008A; 0x0000000000000088; 0x0000000080008009; 0x000000008000000A;
   0x000000008000808B; 0x800000000000008B; 0x8000000000008089; 0x8000000000008003; 0x8000000000008002; 0x8000000000000080;
   0x000000000000800A; 0x800000008000000A; 0x8000000080008081; 0x8000000000008080; 0x0000000080000001; 0x8000000080008008].

(* the array kryptos_u64_t state[5][5]: state[x][y] is element 5x + y *)
Definition lane (st : list N) (x y : nat) : N := nth (5 * x + y) st 0.
Definition set_lane (st : list N) (x y : nat) (v : N) : list N := upd st (5 * x + y) v.
(* src/kryptos_keccak.c:1104-1117 step 1 *)
Definition theta (st : list N) : list N :=
  let C := map (fun x => fold_left (fun c y => xor c (lane st x y)) (seq 1 4) (lane st x 0)) (seq 0 5) in
  fold_left (fun st x =>
    let D := xor (nth ((x + 4) mod 5) C 0) (keccak_rot (nth ((x + 1) mod 5) C 0) 1) in
    fold_left (fun st y => set_lane st x y (xor (lane st x y) D)) (seq 0 5) st) (seq 0 5) st.
(* src/kryptos_keccak.c:1119-1129 step 2; the loop variables are state, x, y, s_chunk *)
Definition rho_pi (st : list N) : list N :=
  fst (fold_left (fun '(st, (x, y, s_chunk)) r_off =>
    let x_t := y in
    let y_t := ((2 * x + 3 * y) mod 5)%nat in
    let swp := lane st x_t y_t in
    (set_lane st x_t y_t (keccak_rot s_chunk r_off), (x_t, y_t, swp))) keccak_rot_off (st, (1%nat, 0%nat, lane st 1 0))).
(* src/kryptos_keccak.c:1131-1140 step 3 *)
Definition chi (st : list N) : list N :=
  fold_left (fun st y =>
    let C := map (fun x => lane st x y) (seq 0 5) in
    fold_left (fun st x => set_lane st x y (xor (nth x C 0) (and (not64 (nth ((x + 1) mod 5) C 0)) (nth ((x + 2) mod 5) C 0)))) (seq 0 5) st) (seq 0 5) st.
(* src/kryptos_keccak.c:1142-1143 step 4 *)
Definition iota (st : list N) (r : nat) : list N := set_lane st 0 0 (xor (lane st 0 0) (nth r keccak_rc 0)).
(* src/kryptos_keccak.c:1097-1150 kryptos_keccak_r1600 *)
Definition keccak_r1600 (st : list N) : list N := fold_left (fun st r => iota (chi (rho_pi (theta st))) r) (seq 0 24) st.

(* src/kryptos_keccak.c:102-105 kryptos_keccak_padding_t *)
Inductive keccak_padding := PadKECCAK | PadSHA3.
(* src/kryptos_keccak.c:25-33 keccak_pad: the d bytes written after the message *)
Definition keccak_pad (d : nat) (t : keccak_padding) : list N :=
  if Nat.eqb d 1 then [match t with PadKECCAK => 0x81 | PadSHA3 => 0x86 end]
  else match t with PadKECCAK => 0x01 | PadSHA3 => 0x06 end :: repeat 0 (d - 2) ++ [0x80].
(* src/kryptos_keccak.c:838-854 the absorbing loop on one block of rw words, mp at its first byte *)
Definition absorb (rw : nat) (st block : list N) : list N :=
  keccak_r1600 (fold_left (fun st m_off =>
    let byte i := nth (8 * m_off + i) block 0 in
    let chunk := or (or (or (or (or (or (or (shlw 64 (byte 7%nat) 56) (shlw 64 (byte 6%nat) 48)) (shlw 64 (byte 5%nat) 40)) (shlw 64 (byte 4%nat) 32))
                   (shlw 64 (byte 3%nat) 24)) (shlw 64 (byte 2%nat) 16)) (shlw 64 (byte 1%nat) 8)) (byte 0%nat) in
    set_lane st (m_off mod 5) (m_off / 5) (xor (lane st (m_off mod 5) (m_off / 5)) chunk)) (seq 0 rw) st).
(* src/kryptos_keccak.c:869-1056 the switch of the squeezing phase: byte j of z comes from word j / 8 *)
Definition squeeze (z_size : nat) (st : list N) : list N :=
  map (fun j => and (shr (lane st (j / 8 mod 5) (j / 8 / 5)) (8 * N.of_nat (j mod 8))) 0xFF) (seq 0 z_size).
(* src/kryptos_keccak.c:803-1095 kryptos_keccak_sponge_1600; r and c are in bits *)
Definition keccak_sponge (r c : nat) (t : keccak_padding) (message : list N) : list N :=
  let d := (r / 8 - length message mod (r / 8))%nat in
  let m := message ++ keccak_pad d t in
  squeeze (c / 2 / 8) (fold_left (absorb (r / 64)) (chunks (r / 64 * 8) m) (repeat 0 25)).

(* What distinguishes the eight hashes: the padding, r and c of the hash_setup blocks of src/kryptos_keccak.c:125-131, 194-200, 267-273,
   356-362, 471-477, 540-546, 613-619, 702-708 *)
Record keccak_params := mkKeccak { kp_pad : keccak_padding; kp_r : nat; kp_c : nat }.
Definition keccak224 := mkKeccak PadKECCAK 1152 448.
Definition keccak256 := mkKeccak PadKECCAK 1088 512.
Definition keccak384 := mkKeccak PadKECCAK 832 768.
Definition keccak512 := mkKeccak PadKECCAK 576 1024.
Definition sha3_224 := mkKeccak PadSHA3 1152 448.
Definition sha3_256 := mkKeccak PadSHA3 1088 512.
Definition sha3_384 := mkKeccak PadSHA3 832 768.
Definition sha3_512 := mkKeccak PadSHA3 576 1024.
(* the to_hex blocks, e.g. src/kryptos_keccak.c:150-189: 64 bit words of z, most significant byte first, in hexadecimal, and in the
   hashes of 28 bytes a last word of 32 bits *)
Definition keccak_hex (z : list N) : list N :=
  concat (map (fun i => word_to_hex 8 (be_val (firstn 8 (skipn (8 * i) z)))) (seq 0 (length z / 8))) ++
  (if Nat.eqb (length z mod 8) 0 then [] else word_to_hex 4 (be_val (skipn (8 * (length z / 8)) z))).
(* src/kryptos_types.h:822-849 KRYPTOS_IMPL_HASH_PROCESSOR with these blocks *)
Definition keccak_processor (k : keccak_params) (to_hex : bool) (inp : option (list N)) (n : N) : outcome hash_run :=
  match inp with
  | None => Done (mkHashRun InvalidParams None 0)
  | Some _ =>
      obind (buf inp n) (fun m =>
      let z := keccak_sponge (kp_r k) (kp_c k) (kp_pad k) m in
      let out := if to_hex then keccak_hex z else z in
      Done (mkHashRun Success (Some out) (N.of_nat (length out))))
  end.
