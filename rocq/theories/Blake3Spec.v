(* BLAKE3 as in "BLAKE3: one function, fast everywhere" (O'Connor, Aumasson, Neves, Wilcox-O'Hearn), section 2. Words are natural numbers
   below 2^32; the mixing function and the constants IV are those of BLAKE2s (BlakeSpec.v). *)
From Coq Require Import List NArith Arith.
From Verif Require Import EncSpec BlakeSpec.
Import ListNotations.
Open Scope N_scope.

(* table 2 *)
Definition PERMUTATION : list nat := [2; 6; 3; 10; 7; 0; 4; 13; 1; 11; 12; 5; 9; 14; 15; 8]%nat.
(* table 3 *)
Definition F_CHUNK_START := 2 ^ 0. Definition F_CHUNK_END := 2 ^ 1. Definition F_PARENT := 2 ^ 2. Definition F_ROOT := 2 ^ 3.
Definition F_KEYED_HASH := 2 ^ 4. Definition F_DERIVE_KEY_CONTEXT := 2 ^ 5. Definition F_DERIVE_KEY_MATERIAL := 2 ^ 6.

(* 2.2: the compression function of h0 .. h7, m0 .. m15, t, b, d: sixteen words *)
Definition round3 (v m : nat -> N) : nat -> N :=
  let G := mix 32 16 12 8 7 in
  let v := G v 0%nat 4%nat  8%nat 12%nat (m  0%nat) (m  1%nat) in
  let v := G v 1%nat 5%nat  9%nat 13%nat (m  2%nat) (m  3%nat) in
  let v := G v 2%nat 6%nat 10%nat 14%nat (m  4%nat) (m  5%nat) in
  let v := G v 3%nat 7%nat 11%nat 15%nat (m  6%nat) (m  7%nat) in
  let v := G v 0%nat 5%nat 10%nat 15%nat (m  8%nat) (m  9%nat) in
  let v := G v 1%nat 6%nat 11%nat 12%nat (m 10%nat) (m 11%nat) in
  let v := G v 2%nat 7%nat  8%nat 13%nat (m 12%nat) (m 13%nat) in
  G v 3%nat 4%nat 9%nat 14%nat (m 14%nat) (m 15%nat).
Fixpoint rounds (n : nat) (v m : nat -> N) : nat -> N :=
  match n with O => v | S n => rounds n (round3 v m) (fun i => m (nth i PERMUTATION 0%nat)) end.
Definition compression (h m : list N) (t b d : N) : list N :=
  let start i := nth i (h ++ firstn 4 (IV 32) ++ [t mod 2 ^ 32; t / 2 ^ 32; b; d]) 0 in
  let v := rounds 7 start (fun i => nth i m 0) in
  map (fun i => if (i <? 8)%nat then N.lxor (v i) (v (i + 8)%nat) else N.lxor (v i) (nth (i - 8) h 0)) (seq 0 16).

(* a compression that is a node of the tree; its chaining value; its output as root (2.6), which is repeated with counters t = 0, 1, ... *)
Record node := mkNode { n_h : list N; n_m : list N; n_t : N; n_b : N; n_d : N }.
Definition chaining_value (x : node) : list N := firstn 8 (compression (n_h x) (n_m x) (n_t x) (n_b x) (n_d x)).
Definition bytes_of_word (x : N) : list N := map (fun j => x / 256 ^ N.of_nat j mod 256) (seq 0 4).
Definition root_block (x : node) (t : N) : list N := concat (map bytes_of_word (compression (n_h x) (n_m x) t (n_b x) (N.lor (n_d x) F_ROOT))).
Definition root_output (x : node) (size : nat) : list N := firstn size (concat (map (fun i => root_block x (N.of_nat i)) (seq 0 (size / 64 + 1)))).

(* 2.4: the blocks of a chunk, the last one padded with zeros; k: the key words, f: the flags of the mode, t: the number of the chunk *)
Definition block_words (l : list N) : list N := map (fun i => little_endian (firstn 4 (skipn (4 * i) (l ++ repeat 0 (64 - length l))))) (seq 0 16).
Definition pieces (size : nat) (l : list N) : nat := Nat.max 1 ((length l + size - 1) / size).
Definition piece (size : nat) (l : list N) (i : nat) : list N := firstn size (skipn (size * i) l).
Definition chunk_node (k : list N) (f t : N) (chunk : list N) : node :=
  let last := (pieces 64 chunk - 1)%nat in
  let flags i := N.lor (N.lor f (if (i =? 0)%nat then F_CHUNK_START else 0)) (if (i =? last)%nat then F_CHUNK_END else 0) in
  let at_ h i := mkNode h (block_words (piece 64 chunk i)) t (N.of_nat (length (piece 64 chunk i))) (flags i) in
  at_ (fold_left (fun h i => chaining_value (at_ h i)) (seq 0 last) k) last.
(* 2.5 *)
Definition parent_node (k : list N) (f : N) (l r : node) : node := mkNode k (chaining_value l ++ chaining_value r) 0 64 (N.lor f F_PARENT).
(* 2.1: the tree over the leaves s .. s+n-1: the left subtree has the largest power of two of leaves that leaves some for the right
   one; fuel n suffices *)
Fixpoint tree (fuel : nat) (k : list N) (f : N) (leaf : N -> node) (s n : N) : node :=
  match fuel with
  | O => leaf s
  | S fuel =>
      if n <=? 1 then leaf s
      else let l := 2 ^ N.log2 (n - 1) in parent_node k f (tree fuel k f leaf s l) (tree fuel k f leaf (s + l) (n - l))
  end.
Definition BLAKE3_root (k : list N) (f : N) (message : list N) : node :=
  let n := pieces 1024 message in
  tree n k f (fun i => chunk_node k f i (piece 1024 message (N.to_nat i))) 0 (N.of_nat n).
Definition key_words_of (l : list N) : list N := map (fun i => little_endian (firstn 4 (skipn (4 * i) l))) (seq 0 8).
(* 2.3: the three modes *)
Definition BLAKE3_hash (size : nat) (message : list N) : list N := root_output (BLAKE3_root (IV 32) 0 message) size.
Definition BLAKE3_keyed_hash (size : nat) (key message : list N) : list N := root_output (BLAKE3_root (key_words_of key) F_KEYED_HASH message) size.
Definition BLAKE3_derive_key (size : nat) (context material : list N) : list N :=
  let key := root_output (BLAKE3_root (IV 32) F_DERIVE_KEY_CONTEXT context) 32 in
  root_output (BLAKE3_root (key_words_of key) F_DERIVE_KEY_MATERIAL material) size.
(* no key, or 32 bytes *)
Definition good_key (k : option (list N)) (kn : N) : Prop := (k = None /\ kn = 0) \/ exists key, k = Some key /\ kn = 32 /\ length key = 32%nat /\ octets key.
Definition BLAKE3 (size : nat) (k : option (list N)) (m : list N) : list N :=
  match k with None => BLAKE3_hash size m | Some key => BLAKE3_keyed_hash size key m end.
