From Verif Require Import Words TaskModel ModeModel CipherBase.
Open Scope N_scope.

(* Model of src/kryptos_serpent.c. The file is straight-line code over five 32-bit registers, written with
   macros; it is modelled as programs of a machine with five registers, one instruction for each
   assignment of the C code, and one macro call for each macro call of the C code. *)

(* The assignments that occur: w_d = w_s, w_d ^= w_s, w_d &= w_s, w_d |= w_s, w_d = ~w_d, rotations
   (macros kryptos_serpent_u32_rl and _rr, lines 20 and 22), w_d = w_s << n, w_d ^= k[(r << 2) + j]. *)
Inductive sins :=
| SMov (d s : nat) | SXor (d s : nat) | SAnd (d s : nat) | SOr (d s : nat) | SNot (d : nat)
| SRl (d : nat) (n : N) | SRr (d : nat) (n : N) | SShl (d s : nat) (n : N) | SKey (d j : nat).

(* src/kryptos_serpent.c:30-52 kryptos_serpent_lk *)
Definition serpent_lk : list sins :=
  [SRl 0 13; SRl 2 3; SXor 1 0; SShl 4 0 3; SXor 3 2; SXor 1 2;
   SRl 1 1; SXor 3 4; SRl 3 7; SMov 4 1; SXor 0 1; SShl 4 4 7;
   SXor 2 3; SXor 0 3; SXor 2 4; SKey 3 3; SKey 1 1; SRl 0 5;
   SRl 2 22; SKey 0 0; SKey 2 2].
(* src/kryptos_serpent.c:54-76 kryptos_serpent_lk_1 *)
Definition serpent_lk_1 : list sins :=
  [SKey 0 0; SKey 1 1; SKey 2 2; SKey 3 3; SRr 0 5; SRr 2 22;
   SMov 4 1; SXor 2 3; SXor 0 3; SShl 4 4 7; SXor 0 1; SRr 1 1;
   SXor 2 4; SRr 3 7; SShl 4 0 3; SXor 1 0; SXor 3 4; SRr 0 13;
   SXor 1 2; SXor 3 2; SRr 2 3].
(* src/kryptos_serpent.c:78-96 kryptos_serpent_sbox0 *)
Definition serpent_sbox0 : list sins :=
  [SMov 4 3; SOr 3 0; SXor 0 4; SXor 4 2; SNot 4; SXor 3 1;
   SAnd 1 0; SXor 1 4; SXor 2 0; SXor 0 3; SOr 4 0; SXor 0 2;
   SAnd 2 1; SXor 3 2; SNot 1; SXor 2 4; SXor 1 2].
(* src/kryptos_serpent.c:98-117 kryptos_serpent_sbox1 *)
Definition serpent_sbox1 : list sins :=
  [SMov 4 1; SXor 1 0; SXor 0 3; SNot 3; SAnd 4 1; SOr 0 1;
   SXor 3 2; SXor 0 3; SXor 1 3; SXor 3 4; SOr 1 4; SXor 4 2;
   SAnd 2 0; SXor 2 1; SOr 1 0; SNot 0; SXor 0 2; SXor 4 1].
(* src/kryptos_serpent.c:119-137 kryptos_serpent_sbox2 *)
Definition serpent_sbox2 : list sins :=
  [SNot 3; SXor 1 0; SMov 4 0; SAnd 0 2; SXor 0 3; SOr 3 4;
   SXor 2 1; SXor 3 1; SAnd 1 0; SXor 0 2; SAnd 2 3; SOr 3 1;
   SNot 0; SXor 3 0; SXor 4 0; SXor 0 2; SOr 1 2].
(* src/kryptos_serpent.c:139-159 kryptos_serpent_sbox3 *)
Definition serpent_sbox3 : list sins :=
  [SMov 4 1; SXor 1 3; SOr 3 0; SAnd 4 0; SXor 0 2; SXor 2 1;
   SAnd 1 3; SXor 2 3; SOr 0 4; SXor 4 3; SXor 1 0; SAnd 0 3;
   SAnd 3 4; SXor 3 2; SOr 4 1; SAnd 2 1; SXor 4 3; SXor 0 3;
   SXor 3 2].
(* src/kryptos_serpent.c:161-179 kryptos_serpent_sbox4 *)
Definition serpent_sbox4 : list sins :=
  [SMov 4 3; SAnd 3 0; SXor 0 4; SXor 3 2; SOr 2 4; SXor 0 1;
   SXor 4 3; SOr 2 0; SXor 2 1; SAnd 1 0; SXor 1 4; SAnd 4 2;
   SXor 2 3; SXor 4 0; SOr 3 1; SNot 1; SXor 3 0].
(* src/kryptos_serpent.c:181-199 kryptos_serpent_sbox5 *)
Definition serpent_sbox5 : list sins :=
  [SMov 4 1; SOr 1 0; SXor 2 1; SNot 3; SXor 4 0; SXor 0 2;
   SAnd 1 4; SOr 4 3; SXor 4 0; SAnd 0 3; SXor 1 3; SXor 3 2;
   SXor 0 1; SAnd 2 4; SXor 1 2; SAnd 2 0; SXor 3 2].
(* src/kryptos_serpent.c:201-219 kryptos_serpent_sbox6 *)
Definition serpent_sbox6 : list sins :=
  [SMov 4 1; SXor 3 0; SXor 1 2; SXor 2 0; SAnd 0 3; SOr 1 3;
   SNot 4; SXor 0 1; SXor 1 2; SXor 3 4; SXor 4 0; SAnd 2 0;
   SXor 4 1; SXor 2 3; SAnd 3 1; SXor 3 0; SXor 1 2].
(* src/kryptos_serpent.c:221-241 kryptos_serpent_sbox7 *)
Definition serpent_sbox7 : list sins :=
  [SNot 1; SMov 4 1; SNot 0; SAnd 1 2; SXor 1 3; SOr 3 4;
   SXor 4 2; SXor 2 3; SXor 3 0; SOr 0 1; SAnd 2 0; SXor 0 4;
   SXor 4 3; SAnd 3 0; SXor 4 1; SXor 2 4; SXor 3 1; SOr 4 0;
   SXor 4 1].
(* src/kryptos_serpent.c:243-261 kryptos_serpent_sbox0_1 *)
Definition serpent_sbox0_1 : list sins :=
  [SMov 4 3; SXor 1 0; SOr 3 1; SXor 4 1; SNot 0; SXor 2 3;
   SXor 3 0; SAnd 0 1; SXor 0 2; SAnd 2 3; SXor 3 4; SXor 2 3;
   SXor 1 3; SAnd 3 0; SXor 1 0; SXor 0 2; SXor 4 3].
(* src/kryptos_serpent.c:263-281 kryptos_serpent_sbox1_1 *)
Definition serpent_sbox1_1 : list sins :=
  [SXor 1 3; SMov 4 0; SXor 0 2; SNot 2; SOr 4 1; SXor 4 3;
   SAnd 3 1; SXor 1 2; SAnd 2 4; SXor 4 1; SOr 1 3; SXor 3 0;
   SXor 2 0; SOr 0 4; SXor 2 4; SXor 1 0; SXor 4 1].
(* src/kryptos_serpent.c:283-301 kryptos_serpent_sbox2_1 *)
Definition serpent_sbox2_1 : list sins :=
  [SXor 2 1; SMov 4 3; SNot 3; SOr 3 2; SXor 2 4; SXor 4 0;
   SXor 3 1; SOr 1 2; SXor 2 0; SXor 1 4; SOr 4 3; SXor 2 3;
   SXor 4 2; SAnd 2 1; SXor 2 3; SXor 3 4; SXor 4 0].
(* src/kryptos_serpent.c:303-322 kryptos_serpent_sbox3_1 *)
Definition serpent_sbox3_1 : list sins :=
  [SXor 2 1; SMov 4 1; SAnd 1 2; SXor 1 0; SOr 0 4; SXor 4 3;
   SXor 0 3; SOr 3 1; SXor 1 2; SXor 1 3; SXor 0 2; SXor 2 3;
   SAnd 3 1; SXor 1 0; SAnd 0 2; SXor 4 3; SXor 3 0; SXor 0 1].
(* src/kryptos_serpent.c:324-343 kryptos_serpent_sbox4_1 *)
Definition serpent_sbox4_1 : list sins :=
  [SXor 2 3; SMov 4 0; SAnd 0 1; SXor 0 2; SOr 2 3; SNot 4;
   SXor 1 0; SXor 0 2; SAnd 2 4; SXor 2 0; SOr 0 4; SXor 0 3;
   SAnd 3 2; SXor 4 3; SXor 3 1; SAnd 1 0; SXor 4 1; SXor 0 3].
(* src/kryptos_serpent.c:345-366 kryptos_serpent_sbox5_1 *)
Definition serpent_sbox5_1 : list sins :=
  [SMov 4 1; SOr 1 2; SXor 2 4; SXor 1 3; SAnd 3 4; SXor 2 3;
   SOr 3 0; SNot 0; SXor 3 2; SOr 2 0; SXor 4 1; SXor 2 4;
   SAnd 4 0; SXor 0 1; SXor 1 3; SAnd 0 2; SXor 2 3; SXor 0 2;
   SXor 2 4; SXor 4 3].
(* src/kryptos_serpent.c:368-386 kryptos_serpent_sbox6_1 *)
Definition serpent_sbox6_1 : list sins :=
  [SXor 0 2; SMov 4 0; SAnd 0 3; SXor 2 3; SXor 0 2; SXor 3 1;
   SOr 2 4; SXor 2 3; SAnd 3 0; SNot 0; SXor 3 1; SAnd 1 2;
   SXor 4 0; SXor 3 4; SXor 4 2; SXor 0 1; SXor 2 0].
(* src/kryptos_serpent.c:388-408 kryptos_serpent_sbox7_1 *)
Definition serpent_sbox7_1 : list sins :=
  [SMov 4 3; SAnd 3 0; SXor 0 2; SOr 2 4; SXor 4 1; SNot 0;
   SOr 1 3; SXor 4 0; SAnd 0 2; SXor 0 1; SAnd 1 2; SXor 3 2;
   SXor 4 3; SAnd 2 3; SOr 3 0; SXor 1 4; SXor 3 4; SAnd 4 0;
   SXor 4 2].

Definition serpent_sboxes : list (list sins) :=
  [serpent_sbox0; serpent_sbox1; serpent_sbox2; serpent_sbox3; serpent_sbox4; serpent_sbox5; serpent_sbox6; serpent_sbox7].
Definition serpent_sboxes_1 : list (list sins) :=
  [serpent_sbox0_1; serpent_sbox1_1; serpent_sbox2_1; serpent_sbox3_1; serpent_sbox4_1; serpent_sbox5_1; serpent_sbox6_1; serpent_sbox7_1].

(* One assignment; k holds the four sub-keys k[r << 2] .. k[(r << 2) + 3] of the macro's argument r. *)
Definition serpent_ins (k : list N) (s : list N) (i : sins) : list N :=
  let R n := nth n s 0 in
  match i with
  | SMov d x => upd s d (R x)
  | SXor d x => upd s d (xor (R d) (R x))
  | SAnd d x => upd s d (and (R d) (R x))
  | SOr d x => upd s d (or (R d) (R x))
  | SNot d => upd s d (notw 32 (R d))
  | SRl d n => upd s d (rotl32 (R d) n)
  | SRr d n => upd s d (rotr32 (R d) n)
  | SShl d x n => upd s d (shl32 (R x) n)
  | SKey d j => upd s d (xor (R d) (nth j k 0))
  end.
Definition serpent_run (k : list N) (p : list sins) (s : list N) : list N := fold_left (serpent_ins k) p s.

(* A macro argument list: argument w_i of the macro is register (nth i a) of the caller. *)
Definition serpent_rename (a : list nat) (i : sins) : sins :=
  let r n := nth n a 0%nat in
  match i with
  | SMov d x => SMov (r d) (r x) | SXor d x => SXor (r d) (r x) | SAnd d x => SAnd (r d) (r x)
  | SOr d x => SOr (r d) (r x) | SNot d => SNot (r d) | SRl d n => SRl (r d) n | SRr d n => SRr (r d) n
  | SShl d x n => SShl (r d) (r x) n | SKey d j => SKey (r d) j
  end.

(* A macro call: one of the s-boxes (number i), its inverse, kryptos_serpent_lk with argument r,
   kryptos_serpent_lk_1 with argument r *)
Inductive scall := SBox (i : nat) (a : list nat) | SBox_1 (i : nat) (a : list nat)
                 | SLk (a : list nat) (r : nat) | SLk_1 (a : list nat) (r : nat).
Definition serpent_args (c : scall) : list nat :=
  match c with SBox _ a | SBox_1 _ a | SLk a _ | SLk_1 a _ => a end.
Definition serpent_prog (c : scall) : list sins :=
  match c with
  | SBox i _ => nth i serpent_sboxes [] | SBox_1 i _ => nth i serpent_sboxes_1 []
  | SLk _ _ => serpent_lk | SLk_1 _ _ => serpent_lk_1
  end.
Definition serpent_rkeys (K : list N) (c : scall) : list N :=
  match c with SBox _ _ | SBox_1 _ _ => [] | SLk _ r | SLk_1 _ r => slice K (4 * r) 4 end.
Definition serpent_call (K : list N) (s : list N) (c : scall) : list N :=
  serpent_run (serpent_rkeys K c) (map (serpent_rename (serpent_args c)) (serpent_prog c)) s.

(* src/kryptos_serpent.c:697-790, the macro calls of kryptos_serpent_block_encrypt *)
Definition serpent_enc_calls : list scall :=
  [SBox 0 [0; 1; 2; 3; 4]; SLk [2; 1; 3; 0; 4] 1; SBox 1 [2; 1; 3; 0; 4];
   SLk [4; 3; 0; 2; 1] 2; SBox 2 [4; 3; 0; 2; 1]; SLk [1; 3; 4; 2; 0] 3;
   SBox 3 [1; 3; 4; 2; 0]; SLk [2; 0; 3; 1; 4] 4; SBox 4 [2; 0; 3; 1; 4];
   SLk [0; 3; 1; 4; 2] 5; SBox 5 [0; 3; 1; 4; 2]; SLk [2; 0; 3; 4; 1] 6;
   SBox 6 [2; 0; 3; 4; 1]; SLk [3; 1; 0; 4; 2] 7; SBox 7 [3; 1; 0; 4; 2];
   SLk [2; 0; 4; 3; 1] 8; SBox 0 [2; 0; 4; 3; 1]; SLk [4; 0; 3; 2; 1] 9;
   SBox 1 [4; 0; 3; 2; 1]; SLk [1; 3; 2; 4; 0] 10; SBox 2 [1; 3; 2; 4; 0];
   SLk [0; 3; 1; 4; 2] 11; SBox 3 [0; 3; 1; 4; 2]; SLk [4; 2; 3; 0; 1] 12;
   SBox 4 [4; 2; 3; 0; 1]; SLk [2; 3; 0; 1; 4] 13; SBox 5 [2; 3; 0; 1; 4];
   SLk [4; 2; 3; 1; 0] 14; SBox 6 [4; 2; 3; 1; 0]; SLk [3; 0; 2; 1; 4] 15;
   SBox 7 [3; 0; 2; 1; 4]; SLk [4; 2; 1; 3; 0] 16; SBox 0 [4; 2; 1; 3; 0];
   SLk [1; 2; 3; 4; 0] 17; SBox 1 [1; 2; 3; 4; 0]; SLk [0; 3; 4; 1; 2] 18;
   SBox 2 [0; 3; 4; 1; 2]; SLk [2; 3; 0; 1; 4] 19; SBox 3 [2; 3; 0; 1; 4];
   SLk [1; 4; 3; 2; 0] 20; SBox 4 [1; 4; 3; 2; 0]; SLk [4; 3; 2; 0; 1] 21;
   SBox 5 [4; 3; 2; 0; 1]; SLk [1; 4; 3; 0; 2] 22; SBox 6 [1; 4; 3; 0; 2];
   SLk [3; 2; 4; 0; 1] 23; SBox 7 [3; 2; 4; 0; 1]; SLk [1; 4; 0; 3; 2] 24;
   SBox 0 [1; 4; 0; 3; 2]; SLk [0; 4; 3; 1; 2] 25; SBox 1 [0; 4; 3; 1; 2];
   SLk [2; 3; 1; 0; 4] 26; SBox 2 [2; 3; 1; 0; 4]; SLk [4; 3; 2; 0; 1] 27;
   SBox 3 [4; 3; 2; 0; 1]; SLk [0; 1; 3; 4; 2] 28; SBox 4 [0; 1; 3; 4; 2];
   SLk [1; 3; 4; 2; 0] 29; SBox 5 [1; 3; 4; 2; 0]; SLk [0; 1; 3; 2; 4] 30;
   SBox 6 [0; 1; 3; 2; 4]; SLk [3; 4; 1; 2; 0] 31; SBox 7 [3; 4; 1; 2; 0]]%nat.
(* src/kryptos_serpent.c:818-911, the macro calls of kryptos_serpent_block_decrypt *)
Definition serpent_dec_calls : list scall :=
  [SBox_1 7 [0; 1; 2; 3; 4]; SLk_1 [1; 3; 0; 4; 2] 31; SBox_1 6 [1; 3; 0; 4; 2];
   SLk_1 [0; 2; 4; 1; 3] 30; SBox_1 5 [0; 2; 4; 1; 3]; SLk_1 [2; 3; 0; 4; 1] 29;
   SBox_1 4 [2; 3; 0; 4; 1]; SLk_1 [2; 0; 1; 4; 3] 28; SBox_1 3 [2; 0; 1; 4; 3];
   SLk_1 [1; 2; 3; 4; 0] 27; SBox_1 2 [1; 2; 3; 4; 0]; SLk_1 [2; 0; 4; 3; 1] 26;
   SBox_1 1 [2; 0; 4; 3; 1]; SLk_1 [1; 0; 4; 3; 2] 25; SBox_1 0 [1; 0; 4; 3; 2];
   SLk_1 [4; 2; 0; 1; 3] 24; SBox_1 7 [4; 2; 0; 1; 3]; SLk_1 [2; 1; 4; 3; 0] 23;
   SBox_1 6 [2; 1; 4; 3; 0]; SLk_1 [4; 0; 3; 2; 1] 22; SBox_1 5 [4; 0; 3; 2; 1];
   SLk_1 [0; 1; 4; 3; 2] 21; SBox_1 4 [0; 1; 4; 3; 2]; SLk_1 [0; 4; 2; 3; 1] 20;
   SBox_1 3 [0; 4; 2; 3; 1]; SLk_1 [2; 0; 1; 3; 4] 19; SBox_1 2 [2; 0; 1; 3; 4];
   SLk_1 [0; 4; 3; 1; 2] 18; SBox_1 1 [0; 4; 3; 1; 2]; SLk_1 [2; 4; 3; 1; 0] 17;
   SBox_1 0 [2; 4; 3; 1; 0]; SLk_1 [3; 0; 4; 2; 1] 16; SBox_1 7 [3; 0; 4; 2; 1];
   SLk_1 [0; 2; 3; 1; 4] 15; SBox_1 6 [0; 2; 3; 1; 4]; SLk_1 [3; 4; 1; 0; 2] 14;
   SBox_1 5 [3; 4; 1; 0; 2]; SLk_1 [4; 2; 3; 1; 0] 13; SBox_1 4 [4; 2; 3; 1; 0];
   SLk_1 [4; 3; 0; 1; 2] 12; SBox_1 3 [4; 3; 0; 1; 2]; SLk_1 [0; 4; 2; 1; 3] 11;
   SBox_1 2 [0; 4; 2; 1; 3]; SLk_1 [4; 3; 1; 2; 0] 10; SBox_1 1 [4; 3; 1; 2; 0];
   SLk_1 [0; 3; 1; 2; 4] 9; SBox_1 0 [0; 3; 1; 2; 4]; SLk_1 [1; 4; 3; 0; 2] 8;
   SBox_1 7 [1; 4; 3; 0; 2]; SLk_1 [4; 0; 1; 2; 3] 7; SBox_1 6 [4; 0; 1; 2; 3];
   SLk_1 [1; 3; 2; 4; 0] 6; SBox_1 5 [1; 3; 2; 4; 0]; SLk_1 [3; 0; 1; 2; 4] 5;
   SBox_1 4 [3; 0; 1; 2; 4]; SLk_1 [3; 1; 4; 2; 0] 4; SBox_1 3 [3; 1; 4; 2; 0];
   SLk_1 [4; 3; 0; 2; 1] 3; SBox_1 2 [4; 3; 0; 2; 1]; SLk_1 [3; 1; 2; 0; 4] 2;
   SBox_1 1 [3; 1; 2; 0; 4]; SLk_1 [4; 1; 2; 0; 3] 1; SBox_1 0 [4; 1; 2; 0; 3]]%nat.

Definition serpent_R (s : list N) (n : nat) : N := nth n s 0.
(* src/kryptos_serpent.c:684-803 kryptos_serpent_block_encrypt. Register r4, not initialised in C, is
   assigned before it is read; it starts here as 0. *)
Definition serpent_encrypt_words (K : list N) (s : N * N * N * N) : N * N * N * N :=
  let '(a, b, c, d) := s in
  let k i := nth i K 0 in
  let s := fold_left (serpent_call K) serpent_enc_calls [xor a (k 0%nat); xor b (k 1%nat); xor c (k 2%nat); xor d (k 3%nat); 0] in
  (xor (serpent_R s 0) (k 128%nat), xor (serpent_R s 1) (k 129%nat), xor (serpent_R s 2) (k 130%nat), xor (serpent_R s 3) (k 131%nat)).
Definition serpent_block_encrypt (K : list N) : list N -> list N := blk_le 4 4 (on4 (serpent_encrypt_words K)).
(* src/kryptos_serpent.c:805-924 kryptos_serpent_block_decrypt *)
Definition serpent_decrypt_words (K : list N) (s : N * N * N * N) : N * N * N * N :=
  let '(a, b, c, d) := s in
  let k i := nth i K 0 in
  let s := fold_left (serpent_call K) serpent_dec_calls [xor a (k 128%nat); xor b (k 129%nat); xor c (k 130%nat); xor d (k 131%nat); 0] in
  (xor (serpent_R s 2) (k 0%nat), xor (serpent_R s 3) (k 1%nat), xor (serpent_R s 1) (k 2%nat), xor (serpent_R s 4) (k 3%nat)).
Definition serpent_block_decrypt (K : list N) : list N -> list N := blk_le 4 4 (on4 (serpent_decrypt_words K)).

(* src/kryptos_serpent.c:511-682 kryptos_serpent_key_schedule *)
(* lines 521-526 with kryptos_serpent_ld_user_key (457-509), which loads 8 little-endian words of the padded
   key: memcpy of the whole user key into a 32-byte array, then the byte 1 after a shorter key *)
Definition serpent_pad_key (key : list N) : outcome (list N) :=
  if Nat.ltb 32 (length key) then UB
  else if Nat.ltb (length key) 32 then Done (key ++ [1] ++ repeat 0 (31 - length key))
  else Done key.
(* lines 530-539: tw, kept newest first; i is w - 8 *)
Definition serpent_tw_step (tw : list N) (i : nat) : list N :=
  let t n := nth n tw 0 in
  rotl32 (xor (xor (xor (xor (xor (t 7%nat) (t 4%nat)) (t 2%nat)) (t 0%nat)) 0x9E3779B9) (N.of_nat i)) 11 :: tw.
Definition serpent_tw (w : list N) : list N := rev (fold_left serpent_tw_step (seq 0 132) (rev w)).

(* kryptos_serpent_sto_key and kryptos_serpent_ld_regs (lines 410-422), and the s-box calls *)
Inductive skop := KCall (c : scall) | KSto (a : list nat) (r : nat) | KLd (a : list nat) (r : nat).
Definition serpent_kop (tw : list N) (st : list N * list N) (o : skop) : list N * list N :=
  let '(s, K) := st in
  match o with
  | KCall c => (serpent_call [] s c, K)
  | KSto a r => (s, fold_left (fun K j => upd K (r + j) (nth (nth j a 0%nat) s 0)) (seq 0 4) K)
  | KLd a r => (fold_left (fun s j => upd s (nth j a 0%nat) (nth (r + j) tw 0)) (seq 0 4) s, K)
  end.
(* src/kryptos_serpent.c:547-674 *)
Definition serpent_ks_ops : list skop :=
  [KCall (SBox 3 [3; 4; 0; 1; 2]); KSto [1; 2; 4; 3] 128; KLd [1; 2; 4; 3] 132;
   KCall (SBox 4 [1; 2; 4; 3; 0]); KSto [2; 4; 3; 0] 124; KLd [2; 4; 3; 0] 128;
   KCall (SBox 5 [2; 4; 3; 0; 1]); KSto [1; 2; 4; 0] 120; KLd [1; 2; 4; 0] 124;
   KCall (SBox 6 [1; 2; 4; 0; 3]); KSto [4; 3; 2; 0] 116; KLd [4; 3; 2; 0] 120;
   KCall (SBox 7 [4; 3; 2; 0; 1]); KSto [1; 2; 0; 4] 112; KLd [1; 2; 0; 4] 116;
   KCall (SBox 0 [1; 2; 0; 4; 3]); KSto [0; 2; 4; 1] 108; KLd [0; 2; 4; 1] 112;
   KCall (SBox 1 [0; 2; 4; 1; 3]); KSto [3; 4; 1; 0] 104; KLd [3; 4; 1; 0] 108;
   KCall (SBox 2 [3; 4; 1; 0; 2]); KSto [2; 4; 3; 0] 100; KLd [2; 4; 3; 0] 104;
   KCall (SBox 3 [2; 4; 3; 0; 1]); KSto [0; 1; 4; 2] 96; KLd [0; 1; 4; 2] 100;
   KCall (SBox 4 [0; 1; 4; 2; 3]); KSto [1; 4; 2; 3] 92; KLd [1; 4; 2; 3] 96;
   KCall (SBox 5 [1; 4; 2; 3; 0]); KSto [0; 1; 4; 3] 88; KLd [0; 1; 4; 3] 92;
   KCall (SBox 6 [0; 1; 4; 3; 2]); KSto [4; 2; 1; 3] 84; KLd [4; 2; 1; 3] 88;
   KCall (SBox 7 [4; 2; 1; 3; 0]); KSto [0; 1; 3; 4] 80; KLd [0; 1; 3; 4] 84;
   KCall (SBox 0 [0; 1; 3; 4; 2]); KSto [3; 1; 4; 0] 76; KLd [3; 1; 4; 0] 80;
   KCall (SBox 1 [3; 1; 4; 0; 2]); KSto [2; 4; 0; 3] 72; KLd [2; 4; 0; 3] 76;
   KCall (SBox 2 [2; 4; 0; 3; 1]); KSto [1; 4; 2; 3] 68; KLd [1; 4; 2; 3] 72;
   KCall (SBox 3 [1; 4; 2; 3; 0]); KSto [3; 0; 4; 1] 64; KLd [3; 0; 4; 1] 68;
   KCall (SBox 4 [3; 0; 4; 1; 2]); KSto [0; 4; 1; 2] 60; KLd [0; 4; 1; 2] 64;
   KCall (SBox 5 [0; 4; 1; 2; 3]); KSto [3; 0; 4; 2] 56; KLd [3; 0; 4; 2] 60;
   KCall (SBox 6 [3; 0; 4; 2; 1]); KSto [4; 1; 0; 2] 52; KLd [4; 1; 0; 2] 56;
   KCall (SBox 7 [4; 1; 0; 2; 3]); KSto [3; 0; 2; 4] 48; KLd [3; 0; 2; 4] 52;
   KCall (SBox 0 [3; 0; 2; 4; 1]); KSto [2; 0; 4; 3] 44; KLd [2; 0; 4; 3] 48;
   KCall (SBox 1 [2; 0; 4; 3; 1]); KSto [1; 4; 3; 2] 40; KLd [1; 4; 3; 2] 44;
   KCall (SBox 2 [1; 4; 3; 2; 0]); KSto [0; 4; 1; 2] 36; KLd [0; 4; 1; 2] 40;
   KCall (SBox 3 [0; 4; 1; 2; 3]); KSto [2; 3; 4; 0] 32; KLd [2; 3; 4; 0] 36;
   KCall (SBox 4 [2; 3; 4; 0; 1]); KSto [3; 4; 0; 1] 28; KLd [3; 4; 0; 1] 32;
   KCall (SBox 5 [3; 4; 0; 1; 2]); KSto [2; 3; 4; 1] 24; KLd [2; 3; 4; 1] 28;
   KCall (SBox 6 [2; 3; 4; 1; 0]); KSto [4; 0; 3; 1] 20; KLd [4; 0; 3; 1] 24;
   KCall (SBox 7 [4; 0; 3; 1; 2]); KSto [2; 3; 1; 4] 16; KLd [2; 3; 1; 4] 20;
   KCall (SBox 0 [2; 3; 1; 4; 0]); KSto [1; 3; 4; 2] 12; KLd [1; 3; 4; 2] 16;
   KCall (SBox 1 [1; 3; 4; 2; 0]); KSto [0; 4; 2; 1] 8; KLd [0; 4; 2; 1] 12;
   KCall (SBox 2 [0; 4; 2; 1; 3]); KSto [3; 4; 0; 1] 4; KLd [3; 4; 0; 1] 8;
   KCall (SBox 3 [3; 4; 0; 1; 2]); KSto [1; 2; 4; 3] 0]%nat.

(* lines 541-545: r0 .. r4 = tw[138], tw[139], tw[135], tw[136], tw[137] *)
Definition serpent_expand (w : list N) : list N :=
  let tw := serpent_tw w in
  let t n := nth n tw 0 in
  snd (fold_left (serpent_kop tw) serpent_ks_ops
        ([t 138%nat; t 139%nat; t 135%nat; t 136%nat; t 137%nat], repeat 0 132)).
Definition serpent_key_schedule (key : list N) : outcome (list N) :=
  obind (serpent_pad_key key) (fun p => Done (serpent_expand (load_le 4 8 p))).

(* src/kryptos_serpent.c:438-455 *)
Definition serpent : blockcipher :=
  let sub key := match serpent_key_schedule key with Done K => K | UB => repeat 0 132 end in
  {| bc_id := SERPENT; bc_bs := 16;
     bc_check := fun key => obind (serpent_key_schedule key) (fun _ => Done Success);
     bc_enc := fun key => serpent_block_encrypt (sub key);
     bc_dec := fun key => serpent_block_decrypt (sub key);
     bc_gcm := GcmStandard |}.
