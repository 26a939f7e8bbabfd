(* Model of src/kryptos_pem.c. Headers are C strings (their characters without the final 0). *)
From Verif Require Import Words EncModel TaskModel MpModel.
Open Scope N_scope.

(* src/kryptos_pem.c:16-22: "-----BEGIN ", "-----END " and "-----\n" *)
Definition begin_pfx : list N := [45; 45; 45; 45; 45; 66; 69; 71; 73; 78; 32].
Definition end_pfx : list N := [45; 45; 45; 45; 45; 69; 78; 68; 32].
Definition sfx : list N := [45; 45; 45; 45; 45; 10].
(* src/kryptos_pem.c:233-286 kryptos_pem_header *)
Definition begin_mark (header : list N) : list N := begin_pfx ++ header ++ sfx.
Definition end_mark (header : list N) : list N := end_pfx ++ header ++ sfx.
(* src/kryptos_pem.c:288-311 kryptos_find_header: the position after the mark; hp is what is left of the mark to compare. After a
   mismatch the current byte is not compared with the start of the mark. *)
Fixpoint find_from (mark hp buf : list N) (pos : nat) : option nat :=
  match buf with
  | [] => None
  | b :: buf =>
      match hp with
      | [] => None (* not reachable: marks are not empty *)
      | c :: hp =>
          if c =? b then match hp with [] => Some (S pos) | _ => find_from mark hp buf (S pos) end
          else find_from mark mark buf (S pos)
      end
  end.
Definition find_header (mark buf : list N) : option nat := find_from mark mark buf 0.
(* src/kryptos_pem.c:34-130 kryptos_pem_put_data with pem_buf_size given; None stands for a NULL buffer. Allocations do not fail. *)
Definition pem_put (pem : option (list N)) (header data : list N) : result * option (list N) :=
  match data with
  | [] => (ProcessError, pem)
  | _ =>
      let old := match pem with Some p => p | None => [] end in
      match (match pem with Some p => find_header (begin_mark header) p | None => None end) with
      | Some _ => (InvalidParams, pem)
      | None =>
          match base64_encode data with
          | Some out => (Success, Some (old ++ begin_mark header ++ out ++ [10] ++ end_mark header))
          | None => (ProcessError, pem)
          end
      end
  end.
(* src/kryptos_pem.c:132-181 kryptos_pem_get_data; None: NULL is returned. UB: no end mark (a null pointer minus data_begin, line 155),
   the end mark at the very start of the buffer (line 343 computes the address before the buffer), or undefined behaviour in the decoder.
   A negative difference is a size no allocation can satisfy. *)
Definition pem_get (header : list N) (pem : option (list N)) : outcome (option (list N)) :=
  match pem with
  | None | Some [] => Done None
  | Some buf =>
      match find_header (begin_mark header) buf with
      | None => Done None
      | Some b =>
          match find_header (end_mark header) buf with
          | None => UB
          | Some e =>
              if Nat.ltb e (length (end_mark header) + 1) then UB
              else
                let e := (e - (length (end_mark header) + 1))%nat in
                if Nat.ltb e b then Done None
                else
                  match base64_decode (firstn (e - b) (skipn b buf)) with
                  | None => Done None
                  | Some r => obind r (fun '(n, w) => Done (Some (w ++ repeat 0 (N.to_nat n - length w))))
                  end
          end
      end
  end.
(* src/kryptos_pem.c:183-231 kryptos_pem_get_mp_data: the bytes are the memory image of the digits; None: process error *)
Definition digits_of_bytes (l : list N) : list N :=
  map le_val (chunks 8 (l ++ repeat 0 ((8 - length l mod 8) mod 8 + (if Nat.eqb (length l) 0 then 8 else 0)))).
Definition pem_get_mp (header : list N) (pem : option (list N)) : outcome (option mp) :=
  obind (pem_get header pem) (fun d => Done (match d with Some l => Some (mkMp false (digits_of_bytes l)) | None => None end)).
(* the export of a value, as in src/kryptos_rsa.c:103-131: (kryptos_u8_t * )n->data, n->data_size * sizeof(kryptos_mp_digit_t) *)
Definition mp_image (a : mp) : list N := concat (map (le_bytes 8) (data a)).
Definition pem_put_mp (pem : option (list N)) (header : list N) (a : mp) : result * option (list N) := pem_put pem header (mp_image a).
