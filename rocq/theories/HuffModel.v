(* Huffman coding. Source: src/kryptos_huffman.c. NULL is Nil for trees and None for buffers; reading or writing outside a buffer and
   following a NULL pointer is UB. Allocation failures, freeing and wiping are not modelled. size_t has 64 bits and a little endian image. *)
From Verif Require Import Words CipherBase StreamModel.
Open Scope N_scope.

(* src/kryptos_huffman.c:42-45 struct kryptos_huffman_tree_ctx *)
Inductive htree := Nil | Tree (l r : htree) (byte : N).
(* src/kryptos_huffman.c:47-51 struct kryptos_huffman_freq_ctx *)
Record freq_ctx := mkFreq { fc_freq : N; fc_byte : N; fc_sub : htree }.

(* src/kryptos_huffman.c:294-306 one byte of kryptos_huffman_eval_byte_freq: the entry number b is updated *)
Fixpoint count_byte (tbl : list freq_ctx) (i : nat) (b : N) : list freq_ctx :=
  match tbl, i with
  | [], _ => []
  | e :: r, O => mkFreq (fc_freq e + 1) (if fc_byte e =? 0 then b else fc_byte e) (fc_sub e) :: r
  | e :: r, S j => e :: count_byte r j b
  end.
(* src/kryptos_huffman.c:311-325 one pass of the while loop of kryptos_huffman_sort_nodes: it ends with the first swap *)
Fixpoint swap_first (l : list freq_ctx) : option (list freq_ctx) :=
  match l with
  | a :: (b :: r) as t => if fc_freq b <? fc_freq a then Some (b :: a :: r) else option_map (cons a) (swap_first t)
  | _ => None
  end.
(* src/kryptos_huffman.c:318-329 the while loop; the fuel bounds the passes and never runs out (sort_sorted in HuffProofs.v) *)
Fixpoint sort_loop (fuel : nat) (l : list freq_ctx) : list freq_ctx :=
  match fuel with
  | O => l
  | S f => match swap_first l with None => l | Some l' => sort_loop f l' end
  end.
Definition sort_nodes (l : list freq_ctx) : list freq_ctx := sort_loop (length l * length l) l.
(* src/kryptos_huffman.c:279-309 kryptos_huffman_eval_byte_freq, before the sorting (raw_freq holds the same counts) *)
Definition raw_table (inp : list N) : list freq_ctx :=
  fold_left (fun tbl b => count_byte tbl (N.to_nat b) b) inp (repeat (mkFreq 0 0 Nil) 256).

(* src/kryptos_huffman.c:344-350 the first loop of kryptos_huffman_mk_tree *)
Definition plant (e : freq_ctx) : freq_ctx :=
  if 0 <? fc_freq e then mkFreq (fc_freq e) (fc_byte e) (Tree (Tree Nil Nil (fc_byte e)) Nil 0) else e.
(* src/kryptos_huffman.c:354-391 joining two neighbours: the new entries and htree *)
Definition join (a b : freq_ctx) : outcome (freq_ctx * freq_ctx * htree) :=
  match fc_sub a, fc_sub b with
  | Tree la Nil xa, Tree lb rb xb =>
      let t := Tree la (match rb with Nil => lb | Tree _ _ _ => fc_sub b end) xa in
      Done (mkFreq (fc_freq a + fc_freq b) 0 t, mkFreq 0 0 Nil, t)
  | Tree la ra xa, Tree lb Nil xb =>
      let t := Tree lb (fc_sub a) xb in
      Done (mkFreq 0 0 Nil, mkFreq (fc_freq b + fc_freq a) 0 t, t)
  | Tree _ _ _, Tree _ _ _ =>
      let t := Tree (fc_sub a) (fc_sub b) 0 in
      Done (mkFreq (fc_freq a + fc_freq b) (fc_byte a) t, mkFreq 0 (fc_byte b) Nil, t)
  | _, _ => UB
  end.
(* src/kryptos_huffman.c:352-395 one turn of the second loop of kryptos_huffman_mk_tree *)
Definition mk_step (st : outcome (list freq_ctx * htree)) (n : nat) : outcome (list freq_ctx * htree) :=
  obind st (fun '(tbl, t) =>
  match skipn n tbl with
  | a :: b :: r =>
      if ((0 <? fc_freq a) && (0 <? fc_freq b))%bool then
        obind (join a b) (fun '(a', b', t') => Done (sort_nodes (firstn n tbl ++ a' :: b' :: r), t'))
      else Done (tbl, t)
  | _ => UB
  end).
(* src/kryptos_huffman.c:340-398 kryptos_huffman_mk_tree *)
Definition mk_tree (tbl : list freq_ctx) : outcome htree :=
  obind (fold_left mk_step (seq 0 255) (Done (map plant tbl, Nil))) (fun '(_, t) => Done t).

(* src/kryptos_huffman.c:432-460 kryptos_huffman_scan_codes; codes holds data cut at data_size, path the filled part of path_buff *)
Fixpoint set_code (codes : list (list N)) (i : nat) (c : list N) : list (list N) :=
  match codes, i with
  | [], _ => []
  | _ :: r, O => c :: r
  | x :: r, S j => x :: set_code r j c
  end.
Fixpoint scan_codes (codes : list (list N)) (path : list N) (t : htree) : outcome (list (list N)) :=
  match t with
  | Nil => UB
  | Tree l r b =>
      if (255 <? length path)%nat then Done codes else
      match l, r with
      | Nil, Nil => Done (set_code codes (N.to_nat b) path)
      | _, _ =>
          if (255 <=? length path)%nat then UB else
          obind (match l with Nil => Done codes | _ => scan_codes codes (path ++ [48]) l end) (fun codes =>
          match r with Nil => Done codes | _ => scan_codes codes (path ++ [49]) r end)
      end
  end.
(* src/kryptos_huffman.c:422-430 kryptos_huffman_get_codes *)
Definition get_codes (t : htree) : outcome (list (list N)) := scan_codes (repeat [] 256) [] t.
Definition code_of (codes : list (list N)) (b : N) : list N := nth (N.to_nat b) codes [].

(* src/kryptos_huffman.c:462-488 kryptos_huffman_eval_deflated_out_size *)
Definition deflated_out_size (tbl : list freq_ctx) (codes : list (list N)) : N :=
  let total := 10 + fold_left N.add (map (fun p => fc_freq (fst p) * N.of_nat (length (snd p))) (combine tbl codes)) 0 in
  8 * ((total + 7) / 8) + fold_left N.add (map (fun c => match c with [] => 0 | _ => 1 + N.of_nat (length c) end) codes) 0.
(* src/kryptos_huffman.c:490-509 kryptos_huffman_dump_tree *)
Definition dump_tree (codes : list (list N)) : list N :=
  concat (map (fun c => match code_of codes (N.of_nat c) with [] => [] | p => p ++ [N.of_nat c] end) (seq 0 256)) ++ [0; 0].

(* src/kryptos_huffman.c:38 kryptos_huffman_get_code_bit; 204-211 and 242-249 a byte from eight characters *)
Definition code_bit (c : N) : N := N.land (c - 48) 1.
Fixpoint pack (n : nat) (b : list N) : list N :=
  match n with
  | O => []
  | S n =>
      fold_left (fun acc i => N.lor acc (N.shiftl (code_bit (nth i b 48)) (N.of_nat (7 - i)))) (seq 0 8) 0 :: pack n (skipn 8 b)
  end.
(* src/kryptos_huffman.c:194-235 the loop over the input; b is the filled part of bitbuf, the rest holds '0'. After a flush the next code
   is copied without looking at the room left. A code of 255 characters has no terminating zero. *)
Fixpoint squash (codes : list (list N)) (inp : list N) (b : list N) : outcome (list N * list N) :=
  match inp with
  | [] => Done ([], b)
  | x :: rest =>
      let c := code_of codes x in
      if (1024 <=? length b + length c)%nat then
        if (255 <=? length c)%nat then UB else
        let room := (1024 - length b)%nat in
        let out := pack 128 (b ++ firstn room c) in
        let b := skipn room c in
        match rest with
        | [] => Done (out, b)
        | y :: rest =>
            let c := code_of codes y in
            if (1024 <? length b + length c)%nat then UB else
            obind (squash codes rest (b ++ c)) (fun '(out', b') => Done (out ++ out', b'))
        end
      else squash codes rest (b ++ c)
  end.
(* src/kryptos_huffman.c:143-277 kryptos_huffman_deflate *)
Definition huffman_deflate (inp : option (list N)) (n : N) : outcome (option (list N)) :=
  match inp with
  | None => Done None
  | Some _ =>
      if n =? 0 then Done None else
      obind (buf inp n) (fun data =>
      obind (mk_tree (sort_nodes (raw_table data))) (fun t =>
      match t with
      | Nil => Done None
      | Tree _ _ _ =>
          obind (get_codes t) (fun codes =>
          obind (squash codes data []) (fun '(out, b) =>
          let last := match b with [] => [] | _ => pack (length b / 8 + 1) b end in
          let res := dump_tree codes ++ le_bytes 8 n ++ out ++ last in
          if deflated_out_size (raw_table data) codes <? N.of_nat (length res) then UB else Done (Some res)))
      end))
  end.

(* src/kryptos_huffman.c:511-531 kryptos_huffman_add_node; the list holds the bytes from in to in_end *)
Definition two_zeros (l : list N) : outcome bool :=
  match l with
  | [] => UB
  | x :: r => if x =? 0 then match r with [] => UB | y :: _ => Done (y =? 0) end else Done false
  end.
Definition left_of (t : htree) : htree := match t with Nil => Nil | Tree l _ _ => l end.
Definition right_of (t : htree) : htree := match t with Nil => Nil | Tree _ r _ => r end.
Definition byte_of (t : htree) : N := match t with Nil => 0 | Tree _ _ b => b end.
Fixpoint add_node (t : htree) (l : list N) : outcome (htree * list N) :=
  match l with
  | [] => UB
  | x :: r =>
      obind (two_zeros l) (fun stop =>
      if stop then Done (t, l)
      else if x =? 48 then obind (add_node (left_of t) r) (fun '(t', k) => Done (Tree t' (right_of t) (byte_of t), k))
      else if x =? 49 then obind (add_node (right_of t) r) (fun '(t', k) => Done (Tree (left_of t) t' (byte_of t), k))
      else Done (Tree (left_of t) (right_of t) x, r))
  end.
(* src/kryptos_huffman.c:533-544 kryptos_huffman_rebuild_tree; every turn takes a byte at least, the fuel never runs out *)
Fixpoint rebuild (fuel : nat) (t : htree) (l : list N) : outcome (htree * list N) :=
  match fuel with
  | O => UB
  | S f =>
      match l with
      | [] => UB
      | _ =>
          obind (two_zeros l) (fun stop =>
          if stop then Done (t, skipn 2 l) else obind (add_node t l) (fun '(t, l) => rebuild f t l))
      end
  end.
(* src/kryptos_huffman.c:115-128 the bits of a byte, the most significant one first *)
Definition bits_msb (x : N) : list bool := map (fun i => N.testbit x (N.of_nat (7 - i))) (seq 0 8).
(* src/kryptos_huffman.c:114-130 the loop over the bits while the output is not full: the bytes written *)
Fixpoint walk_bits (root tp : htree) (bits : list bool) (left : nat) : outcome (list N) :=
  match left, bits with
  | O, _ => Done []
  | S left', [] => Done []
  | S left', c :: bits =>
      match tp with
      | Nil => UB
      | Tree l r _ =>
          match (if c then r else l) with
          | Nil => UB
          | Tree Nil Nil x => obind (walk_bits root root bits left') (fun o => Done (x :: o))
          | tp' => walk_bits root tp' bits left
          end
      end
  end.
(* src/kryptos_huffman.c:86-141 kryptos_huffman_inflate with out_size not NULL; the bytes not written are 0. The allocation of
   *out_size + 1 bytes wraps for 2^64 - 1. Without input the list that rebuild needs is missing. *)
Definition huffman_inflate (inp : option (list N)) (n : N) : outcome (list N) :=
  obind (buf inp n) (fun l =>
  obind (rebuild (S (length l)) Nil l) (fun '(t, l) =>
  if (length l <? 8)%nat then UB else
  let size := le_val (firstn 8 l) in
  if size =? 2 ^ 64 - 1 then UB else
  obind (walk_bits t t (concat (map bits_msb (skipn 8 l))) (N.to_nat size)) (fun o =>
  Done (o ++ repeat 0 (N.to_nat size - length o))))).
