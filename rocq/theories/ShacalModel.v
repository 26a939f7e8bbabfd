(* SHACAL-1 and SHACAL-2. *)
From Verif Require Import Words TaskModel ModeModel CipherBase.
Open Scope N_scope.

(* src/kryptos_shacal1.c:22-30 kryptos_shacal1_F *)
Definition shacal1_F (t : nat) (B C D : N) : N :=
  if (t <=? 19)%nat then or (and B C) (and (notw 32 B) D)
  else if (((20 <=? t) && (t <=? 39)) || ((60 <=? t) && (t <=? 79)))%nat%bool then xor (xor B C) D
  else if (t <=? 59)%nat then or (or (and B C) (and B D)) (and C D)
  else 0.

(* src/kryptos_shacal1.c:32-42 kryptos_shacal1_K *)
Definition shacal1_K (t : nat) : N :=
  if (t <=? 19)%nat then 0x5A827999
  else if (t <=? 39)%nat then 0x6ED9EBA1
  else if (t <=? 59)%nat then 0x8F1BBCDC
  else if (t <=? 79)%nat then 0xCA62C1D6
  else 0.

(* src/kryptos_shacal1.c:156-158: W[t] for the next n values of t, the words so far in order *)
Fixpoint shacal1_expand (n : nat) (W : list N) : list N :=
  match n with
  | O => W
  | S m =>
      let t := length W in
      shacal1_expand m
        (W ++ [rotl32 (xor (xor (xor (nth (t - 3) W 0) (nth (t - 8) W 0)) (nth (t - 14) W 0))
                           (nth (t - 16) W 0)) 1])
  end.

(* src/kryptos_shacal1.c:77-159 kryptos_shacal1_ld_user_key, kryptos_shacal1_key_sched; 64 calls of
   kryptos_ld_user_key_byte *)
Definition shacal1_key_sched (key : list N) : list N := shacal1_expand 64 (ld_user_key 4 16 64 key).

(* src/kryptos_shacal1.c:176-185: one iteration *)
Definition shacal1_enc_round (W : list N) (s : list N) (t : nat) : list N :=
  match s with
  | [A; B; C; D; E] =>
      let TEMP := add32 (add32 (add32 (add32 (rotl32 A 5) (shacal1_F t B C D)) E) (nth t W 0)) (shacal1_K t) in
      [TEMP; A; rotl32 B 30; C; D]
  | _ => s
  end.

(* src/kryptos_shacal1.c:211-232: one iteration *)
Definition shacal1_dec_round (W : list N) (s : list N) (t : nat) : list N :=
  match s with
  | [A; B; C; D; E] =>
      let TEMP := A in
      let A := B in
      let B := rotl32 C 2 in
      let C := D in
      let D := E in
      [A; B; C; D;
       sub32 (sub32 (sub32 (sub32 TEMP (rotl32 A 5)) (shacal1_F t B C D)) (nth t W 0)) (shacal1_K t)]
  | _ => s
  end.

(* src/kryptos_shacal1.c:60-75, 161-245 kryptos_shacal1_block_encrypt, kryptos_shacal1_block_decrypt *)
Definition shacal1 : blockcipher :=
  {| bc_id := SHACAL1; bc_bs := 20;
     bc_check := fun _ => Done Success;
     bc_enc := fun key => blk_be 4 5 (fun s => fold_left (shacal1_enc_round (shacal1_key_sched key)) (seq 0 80) s);
     bc_dec := fun key => blk_be 4 5 (fun s => fold_left (shacal1_dec_round (shacal1_key_sched key)) (rev (seq 0 80)) s);
     bc_gcm := GcmNoSupport |}.

(* src/kryptos_shacal2.c:17-37 *)
Definition shacal2_CH (x y z : N) : N := xor (and x y) (and (notw 32 x) z).
Definition shacal2_MAJ (x y z : N) : N := xor (xor (and x y) (and x z)) (and y z).
Definition shacal2_BSIG0 (x : N) : N := xor (xor (rotr32 x 2) (rotr32 x 13)) (rotr32 x 22).
Definition shacal2_BSIG1 (x : N) : N := xor (xor (rotr32 x 6) (rotr32 x 11)) (rotr32 x 25).
Definition shacal2_SSIG0 (x : N) : N := xor (xor (rotr32 x 7) (rotr32 x 18)) (shr x 3).
Definition shacal2_SSIG1 (x : N) : N := xor (xor (rotr32 x 17) (rotr32 x 19)) (shr x 10).

(* src/kryptos_shacal2.c:39-56 kryptos_shacal2_K *)
Definition shacal2_K : list N :=
  [1116352408; 1899447441; 3049323471; 3921009573; 961987163; 1508970993; 2453635748; 2870763221; 3624381080; 310598401; 607225278; 1426881987; 1925078388; 2162078206; 2614888103; 3248222580;
   3835390401; 4022224774; 264347078; 604807628; 770255983; 1249150122; 1555081692; 1996064986; 2554220882; 2821834349; 2952996808; 3210313671; 3336571891; 3584528711; 113926993; 338241895;
   666307205; 773529912; 1294757372; 1396182291; 1695183700; 1986661051; 2177026350; 2456956037; 2730485921; 2820302411; 3259730800; 3345764771; 3516065817; 3600352804; 4094571909; 275423344;
   430227734; 506948616; 659060556; 883997877; 958139571; 1322822218; 1537002063; 1747873779; 1955562222; 2024104815; 2227730452; 2361852424; 2428436474; 2756734187; 3204031479; 3329325298]%N.

(* src/kryptos_shacal2.c:168-171 *)
Fixpoint shacal2_expand (n : nat) (W : list N) : list N :=
  match n with
  | O => W
  | S m =>
      let t := length W in
      shacal2_expand m
        (W ++ [add32 (add32 (add32 (shacal2_SSIG1 (nth (t - 2) W 0)) (nth (t - 7) W 0))
                            (shacal2_SSIG0 (nth (t - 15) W 0))) (nth (t - 16) W 0)])
  end.

(* src/kryptos_shacal2.c:91-172 kryptos_shacal2_ld_user_key (64 calls), kryptos_shacal2_key_sched *)
Definition shacal2_key_sched (key : list N) : list N := shacal2_expand 48 (ld_user_key 4 16 64 key).

(* src/kryptos_shacal2.c:187-198: one iteration *)
Definition shacal2_enc_round (W : list N) (s : list N) (t : nat) : list N :=
  match s with
  | [a; b; c; d; e; f; g; h] =>
      let T1 := add32 (add32 (add32 (add32 h (shacal2_BSIG1 e)) (shacal2_CH e f g)) (nth t shacal2_K 0)) (nth t W 0) in
      let T2 := add32 (shacal2_BSIG0 a) (shacal2_MAJ a b c) in
      [add32 T1 T2; a; b; c; add32 d T1; e; f; g]
  | _ => s
  end.

(* src/kryptos_shacal2.c:225-239: one iteration *)
Definition shacal2_dec_round (W : list N) (s : list N) (t : nat) : list N :=
  match s with
  | [a; b; c; d; e; f; g; h] =>
      let T1 := a in
      let a := b in
      let b := c in
      let c := d in
      let d := e in
      let e := f in
      let f := g in
      let g := h in
      let T2 := add32 (shacal2_BSIG0 a) (shacal2_MAJ a b c) in
      let T1 := sub32 T1 T2 in
      let d := sub32 d T1 in
      [a; b; c; d; e; f; g;
       sub32 T1 (add32 (add32 (add32 (shacal2_BSIG1 e) (shacal2_CH e f g)) (nth t shacal2_K 0)) (nth t W 0))]
  | _ => s
  end.

(* src/kryptos_shacal2.c:74-89, 174-251 kryptos_shacal2_block_encrypt, kryptos_shacal2_block_decrypt *)
Definition shacal2 : blockcipher :=
  {| bc_id := SHACAL2; bc_bs := 32;
     bc_check := fun _ => Done Success;
     bc_enc := fun key => blk_be 4 8 (fun s => fold_left (shacal2_enc_round (shacal2_key_sched key)) (seq 0 64) s);
     bc_dec := fun key => blk_be 4 8 (fun s => fold_left (shacal2_dec_round (shacal2_key_sched key)) (rev (seq 0 64)) s);
     bc_gcm := GcmNoSupport |}.
