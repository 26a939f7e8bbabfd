(* PEM buffers: property C55. *)
From Verif Require Import Words EncSpec TaskModel MpModel MpSpec PemModel PemSpec PemProofs.
From Coq Require Import String.
Open Scope N_scope.

(* C55. After every history of puts (headers without dashes), starting from no buffer at all: every put had the result it has on a map,
   and every get returns what the map holds, NULL if it holds nothing. *)
Theorem pem_is_a_map : forall ops h, Forall (fun e => good_header (fst e) /\ good_data (snd e)) ops -> good_header h ->
  fst (run pem_put None ops) = fst (run map_put empty_map ops) /\ pem_get h (snd (run pem_put None ops)) = Done (snd (run map_put empty_map ops) h).
Proof. intros ops h F G. destruct (run_ok ops None empty_map rel_empty F) as [E R]. split; [exact E|]. apply get_ok; assumption. Qed.
(* a refused put leaves the buffer as it was, byte for byte *)
Theorem pem_put_refused : forall pem h d, fst (pem_put pem h d) <> Success -> snd (pem_put pem h d) = pem.
Proof.
  intros pem h d H. unfold pem_put in *. destruct d as [|x d]; [reflexivity|]. destruct (match pem with Some p => find_header (begin_mark h) p | None => None end); [reflexivity|]. destruct (EncModel.base64_encode (x :: d)); [exfalso; apply H; reflexivity|reflexivity].
Qed.
(* numbers stored in the same buffer come back with the same digits (their sign is not stored) *)
Theorem pem_numbers : forall ops h a, Forall (fun e => good_header (fst e) /\ good_data (snd e)) ops -> good_header h -> well_formed a -> N.of_nat (List.length (data a)) < 2 ^ 57 ->
  snd (run map_put empty_map ops) h = Some (mp_image a) -> pem_get_mp h (snd (run pem_put None ops)) = Done (Some (mkMp false (data a))).
Proof. intros ops h a F G W L E. destruct (pem_is_a_map ops h F G) as [_ H]. unfold pem_get_mp. rewrite H, E. cbn [obind]. rewrite image_digits by exact W. reflexivity. Qed.
Theorem pem_number_image : forall a, well_formed a -> N.of_nat (List.length (data a)) < 2 ^ 57 -> good_data (mp_image a).
Proof. exact image_good. Qed.
(* Headers with dashes: storing "x-----BEGIN y" alone makes the get of "y" undefined and the put of "y" fail. *)
Theorem pem_header_dash_refuted : let h := codes "x-----BEGIN y" in let h' := codes "y" in let pem := snd (pem_put None h [1]) in
  fst (pem_put None h [1]) = Success /\ h <> h' /\ pem_get h' pem = UB /\ fst (pem_put pem h' [2]) = InvalidParams.
Proof. cbv zeta. split; [reflexivity|]. split; [discriminate|]. split; vm_compute; reflexivity. Qed.
(* Buffers from elsewhere: a block without its end mark is undefined behaviour; one byte "-" before the block hides it. *)
Theorem pem_truncated_refuted : forall h d, good_header h -> good_data d -> pem_get h (Some (begin_mark h ++ rfc_base64 d)) = UB.
Proof. exact truncated_ub. Qed.
Theorem pem_leading_dash_refuted : let h := codes "y" in let pem := snd (pem_put None h [1]) in
  pem_get h pem = Done (Some [1]) /\ pem_get h (match pem with Some b => Some (45 :: b) | None => None end) = Done None.
Proof. split; vm_compute; reflexivity. Qed.
Example pem_meets : let ops := [(codes "RSA PARAM N", [1; 2; 3]); (codes "RSA PARAM E", [4]); (codes "RSA PARAM N", [9])] in
  Forall (fun e => good_header (fst e) /\ good_data (snd e)) ops /\ fst (run pem_put None ops) = [Success; Success; InvalidParams] /\ pem_get (codes "RSA PARAM N") (snd (run pem_put None ops)) = Done (Some [1; 2; 3]).
Proof.
  assert (forall l, forallb (fun x => (x <? 256) && negb (x =? 0) && negb (x =? 45))%bool l = true -> good_header l) as H.
  { intros l H. rewrite forallb_forall in H. unfold good_header, octets. rewrite Forall_forall. split; [|split]; [intros x Hx|intro Hx|intro Hx]; specialize (H _ Hx); [|discriminate|discriminate]. apply andb_prop in H. destruct H as [H _]. apply andb_prop in H. apply N.ltb_lt. apply H. }
  cbv zeta. split; [|split; vm_compute; reflexivity]. repeat constructor; try (apply H; vm_compute; reflexivity); try discriminate; apply H; vm_compute; reflexivity.
Qed.

Print Assumptions pem_is_a_map.
Print Assumptions pem_put_refused.
Print Assumptions pem_numbers.
Print Assumptions pem_number_image.
Print Assumptions pem_header_dash_refuted.
Print Assumptions pem_truncated_refuted.
Print Assumptions pem_leading_dash_refuted.
