(* Model of src/kryptos_dh.c. Buffers are byte lists, failed allocations are left out, random bytes come from a list, loops take a fuel
   ("Done None": the fuel or the bytes are used up). *)
From Verif Require Import Words TaskModel EncSpec MpModel MpModel2 PemModel DlModel.
From Coq Require Import String.
Open Scope N_scope.

(* src/kryptos_dh.h:14-24 *)
Definition dh_p := codes "DH PARAM P".
Definition dh_q := codes "DH PARAM Q".
Definition dh_g := codes "DH PARAM G".
Definition dh_t := codes "DH PARAM T".
Definition dh_s := codes "DH PARAM S".
Definition dh_u := codes "DH PARAM U".
(* src/kryptos_dh.h:36-44 struct kryptos_dh_xchg_ctx *)
Record xchg := mkXchg { x_p : option mp; x_q : option mp; x_g : option mp; x_t : option mp; x_s : option mp; x_k : option mp; x_bits : N; x_in : option (list N); x_out : option (list N); x_res : result }.
(* src/kryptos_dh.h:46-54 kryptos_dh_init_xchg_ctx *)
Definition xchg0 : xchg := mkXchg None None None None None None 0 None None Success.
Definition with_pqg (x : xchg) (p q g : option mp) : xchg := mkXchg p q g (x_t x) (x_s x) (x_k x) (x_bits x) (x_in x) (x_out x) (x_res x).
Definition with_t (x : xchg) (t : option mp) : xchg := mkXchg (x_p x) (x_q x) (x_g x) t (x_s x) (x_k x) (x_bits x) (x_in x) (x_out x) (x_res x).
Definition with_s (x : xchg) (s : option mp) : xchg := mkXchg (x_p x) (x_q x) (x_g x) (x_t x) s (x_k x) (x_bits x) (x_in x) (x_out x) (x_res x).
Definition with_k (x : xchg) (k : option mp) : xchg := mkXchg (x_p x) (x_q x) (x_g x) (x_t x) (x_s x) k (x_bits x) (x_in x) (x_out x) (x_res x).
Definition with_bits (x : xchg) (b : N) : xchg := mkXchg (x_p x) (x_q x) (x_g x) (x_t x) (x_s x) (x_k x) b (x_in x) (x_out x) (x_res x).
Definition with_in (x : xchg) (i : option (list N)) : xchg := mkXchg (x_p x) (x_q x) (x_g x) (x_t x) (x_s x) (x_k x) (x_bits x) i (x_out x) (x_res x).
Definition with_out (x : xchg) (o : option (list N)) : xchg := mkXchg (x_p x) (x_q x) (x_g x) (x_t x) (x_s x) (x_k x) (x_bits x) (x_in x) o (x_res x).
Definition with_res (x : xchg) (r : result) : xchg := mkXchg (x_p x) (x_q x) (x_g x) (x_t x) (x_s x) (x_k x) (x_bits x) (x_in x) (x_out x) r.

(* src/kryptos_dh.c:768-781 kryptos_dh_eval_t with arguments that are not NULL *)
Definition eval_t (g s p : mp) : outcome mp := me_mod_n g s p.
(* 829-851: the loop of kryptos_dh_get_random_s *)
Fixpoint random_s_loop (fuel : nat) (p_2 : mp) (n : nat) (mask : N) (rs : list N) : outcome (option (mp * list N)) :=
  match fuel with
  | O => Done None
  | S fuel =>
      match rand_digits n rs with
      | None => Done None
      | Some (ds, rs) =>
          let s := mkMp false (map (fun d => N.land d mask) ds) in
          if (mp_gt s p_2 || mp_lt s (num 2))%bool then random_s_loop fuel p_2 n mask rs else Done (Some (s, rs))
      end
  end.
(* 783-863 kryptos_dh_get_random_s; s_bits = 0 shifts the mask by 64 *)
Definition random_s (fuel : nat) (p : mp) (s_bits : N) (rs : list N) : outcome (option (mp * list N)) :=
  obind (mp_sub (Some (assign None p)) (num 2)) (fun p_2 =>
  if s_bits =? 0 then UB
  else
    let n := if N.of_nat (size p) <? N.shiftr s_bits 6 then size p else new_digits (N.to_nat s_bits) in
    random_s_loop fuel p_2 n (if s_bits <? 64 then N.ones s_bits else N.ones 64) rs).
(* the optional q among the values put into a buffer *)
Definition opt_q (q : option mp) : list (list N * mp) := match q with Some q => [(dh_q, q)] | None => [] end.

Definition xanswer := outcome (option (xchg * list N)).
(* kryptos_pem_get_mp_data into a member of x; ProcessError and return if it fails *)
Definition xfetch (h : list N) (x : xchg) (rs : list N) (k : mp -> xanswer) : xanswer :=
  obind (pem_get_mp h (x_in x)) (fun a => match a with Some a => k a | None => Done (Some (with_res x ProcessError, rs)) end).
(* the same for q, which may be missing: the member keeps its value then *)
Definition xfetch_q (x : xchg) (k : option mp -> xanswer) : xanswer := obind (pem_get_mp dh_q (x_in x)) (fun a => k (match a with Some a => Some a | None => x_q x end)).
(* kryptos_dh_get_random_s into s *)
Definition xsecret (fuel : nat) (x : xchg) (p : mp) (rs : list N) (k : mp -> list N -> xanswer) : xanswer :=
  obind (random_s fuel (match x_q x with Some q => q | None => p end) (x_bits x) rs) (fun o => match o with None => Done None | Some (s, rs) => k s rs end).

(* 603-726 kryptos_dh_process_stdxchg *)
Definition std_tail (fuel : nat) (x : xchg) (sender : bool) (rs : list N) : xanswer :=
  match x_p x, x_g x with
  | Some p, Some g =>
      match x_s x with
      | None =>
          xsecret fuel x p rs (fun s rs =>
          let x := with_out (with_s x (Some s)) None in
          if sender
          then obind (eval_t g s p) (fun t => let '(r, o) := put_mps None ((dh_p, p) :: opt_q (x_q x) ++ [(dh_g, g); (dh_t, t)]) in Done (Some (with_t (with_out (with_res x r) o) None, rs)))
          else
            match x_t x with
            | None => Done (Some (with_res x InvalidParams, rs))
            | Some t =>
                obind (eval_t t s p) (fun k => obind (eval_t g s p) (fun t =>
                let '(r, o) := put_mps None [(dh_t, t)] in Done (Some (with_t (with_out (with_k (with_res x r) (Some k)) o) None, rs))))
            end)
      | Some s =>
          match x_t x with
          | None => Done (Some (with_res x InvalidParams, rs))
          | Some t => obind (eval_t t s p) (fun k => Done (Some (with_k (with_res x Success) (Some k), rs)))
          end
      end
  | _, _ => UB (* not reachable *)
  end.
Definition std_t (fuel : nat) (x : xchg) (sender : bool) (rs : list N) : xanswer :=
  match x_t x, x_in x with
  | None, Some _ => xfetch dh_t x rs (fun t => std_tail fuel (with_t x (Some t)) sender rs)
  | _, _ => std_tail fuel x sender rs
  end.
Definition dh_std (fuel : nat) (x : xchg) (rs : list N) : xanswer :=
  match x_p x, x_g x with
  | Some _, Some _ => std_t fuel x true rs
  | _, _ =>
      xfetch dh_p x rs (fun p => xfetch_q x (fun q =>
      xfetch dh_g (with_pqg x (Some p) q (x_g x)) rs (fun g => std_t fuel (with_pqg x (Some p) q (Some g)) false rs)))
  end.

(* 357-471 kryptos_dh_mk_key_pair: buffers, context. A buffer that is not NULL is freed and then read by kryptos_pem_put_data. *)
Definition dh_key_pair (fuel : nat) (k_pub k_priv : option (list N)) (x : xchg) (rs : list N) : outcome (option (option (list N) * option (list N) * xchg * list N)) :=
  match x_p x, x_g x with
  | Some p, Some g =>
      obind (random_s fuel (match x_q x with Some q => q | None => p end) (x_bits x) rs) (fun o =>
      match o with
      | None => Done None
      | Some (s, rs) =>
          obind (eval_t g s p) (fun t =>
          match k_pub with
          | Some _ => UB
          | None =>
              match put_mps None ((dh_p, p) :: opt_q (x_q x) ++ [(dh_g, g); (dh_t, t)]) with
              | (Success, pub) =>
                  match k_priv with
                  | Some _ => UB
                  | None => let '(r, priv) := put_mps None [(dh_s, s); (dh_p, p)] in Done (Some (pub, priv, with_s (with_t (with_res x r) None) None, rs))
                  end
              | (r, pub) => Done (Some (pub, k_priv, with_s (with_t (with_res x r) (Some t)) (Some s), rs))
              end
          end)
      end)
  | _, _ => Done (Some (k_pub, k_priv, with_res x InvalidParams, rs))
  end.
(* 473-601 kryptos_dh_process_modxchg *)
Definition dh_mod (fuel : nat) (x : xchg) (rs : list N) : xanswer :=
  obind (pem_get_mp dh_u (x_in x)) (fun o =>
  match o with
  | None =>
      xfetch dh_p x rs (fun p => xfetch_q x (fun q =>
      xfetch dh_g (with_pqg x (Some p) q (x_g x)) rs (fun g => xfetch dh_t (with_pqg x (Some p) q (Some g)) rs (fun t =>
      let x := with_t (with_pqg x (Some p) q (Some g)) (Some t) in
      xsecret fuel x p rs (fun s rs =>
      let x := with_s x (Some s) in
      obind (eval_t g s p) (fun u =>
      match pem_put_mp (x_out x) dh_u u with
      | (Success, o) => obind (eval_t t s p) (fun k => Done (Some (mkXchg None None None None None (Some k) (x_bits x) (x_in x) o Success, rs)))
      | (r, o) => Done (Some (with_out (with_res x r) o, rs))
      end))))))
  | Some u =>
      xfetch dh_p x rs (fun p => xfetch dh_s (with_pqg x (Some p) (x_q x) (x_g x)) rs (fun s =>
      obind (eval_t u s p) (fun k => Done (Some (with_s (with_k (with_res (with_pqg x None (x_q x) (x_g x)) Success) (Some k)) None, rs)))))
  end).

(* ---- the predefined groups *)
(* src/kryptos_dh.c:41-49 *)
Definition modp_1536 : string := (
  "FFFFFFFFFFFFFFFFC90FDAA22168C234C4C6628B80DC1CD129024E088A67CC74020BBEA63B139B22514A08798E3404DDEF9519B3CD3A431B302B0A6DF25F1437" ++
  "4FE1356D6D51C245E485B576625E7EC6F44C42E9A637ED6B0BFF5CB6F406B7EDEE386BFB5A899FA5AE9F24117C4B1FE649286651ECE45B3DC2007CB8A163BF05" ++
  "98DA48361C55D39A69163FA8FD24CF5F83655D23DCA3AD961C62F356208552BB9ED529077096966D670C354E4ABC9804F1746C08CA237327FFFFFFFFFFFFFFFF")%string.

(* src/kryptos_dh.c:52-63 *)
Definition modp_2048 : string := (
  "FFFFFFFFFFFFFFFFC90FDAA22168C234C4C6628B80DC1CD129024E088A67CC74020BBEA63B139B22514A08798E3404DDEF9519B3CD3A431B302B0A6DF25F1437" ++
  "4FE1356D6D51C245E485B576625E7EC6F44C42E9A637ED6B0BFF5CB6F406B7EDEE386BFB5A899FA5AE9F24117C4B1FE649286651ECE45B3DC2007CB8A163BF05" ++
  "98DA48361C55D39A69163FA8FD24CF5F83655D23DCA3AD961C62F356208552BB9ED529077096966D670C354E4ABC9804F1746C08CA18217C32905E462E36CE3B" ++
  "E39E772C180E86039B2783A2EC07A28FB5C55DF06F4C52C9DE2BCBF6955817183995497CEA956AE515D2261898FA051015728E5A8AACAA68FFFFFFFFFFFFFFFF")%string.

(* src/kryptos_dh.c:66-82 *)
Definition modp_3072 : string := (
  "FFFFFFFFFFFFFFFFC90FDAA22168C234C4C6628B80DC1CD129024E088A67CC74020BBEA63B139B22514A08798E3404DDEF9519B3CD3A431B302B0A6DF25F1437" ++
  "4FE1356D6D51C245E485B576625E7EC6F44C42E9A637ED6B0BFF5CB6F406B7EDEE386BFB5A899FA5AE9F24117C4B1FE649286651ECE45B3DC2007CB8A163BF05" ++
  "98DA48361C55D39A69163FA8FD24CF5F83655D23DCA3AD961C62F356208552BB9ED529077096966D670C354E4ABC9804F1746C08CA18217C32905E462E36CE3B" ++
  "E39E772C180E86039B2783A2EC07A28FB5C55DF06F4C52C9DE2BCBF6955817183995497CEA956AE515D2261898FA051015728E5A8AAAC42DAD33170D04507A33" ++
  "A85521ABDF1CBA64ECFB850458DBEF0A8AEA71575D060C7DB3970F85A6E1E4C7ABF5AE8CDB0933D71E8C94E04A25619DCEE3D2261AD2EE6BF12FFA06D98A0864" ++
  "D87602733EC86A64521F2B18177B200CBBE117577A615D6C770988C0BAD946E208E24FA074E5AB3143DB5BFCE0FD108E4B82D120A93AD2CAFFFFFFFFFFFFFFFF")%string.

(* src/kryptos_dh.c:85-107 *)
Definition modp_4096 : string := (
  "FFFFFFFFFFFFFFFFC90FDAA22168C234C4C6628B80DC1CD129024E088A67CC74020BBEA63B139B22514A08798E3404DDEF9519B3CD3A431B302B0A6DF25F1437" ++
  "4FE1356D6D51C245E485B576625E7EC6F44C42E9A637ED6B0BFF5CB6F406B7EDEE386BFB5A899FA5AE9F24117C4B1FE649286651ECE45B3DC2007CB8A163BF05" ++
  "98DA48361C55D39A69163FA8FD24CF5F83655D23DCA3AD961C62F356208552BB9ED529077096966D670C354E4ABC9804F1746C08CA18217C32905E462E36CE3B" ++
  "E39E772C180E86039B2783A2EC07A28FB5C55DF06F4C52C9DE2BCBF6955817183995497CEA956AE515D2261898FA051015728E5A8AAAC42DAD33170D04507A33" ++
  "A85521ABDF1CBA64ECFB850458DBEF0A8AEA71575D060C7DB3970F85A6E1E4C7ABF5AE8CDB0933D71E8C94E04A25619DCEE3D2261AD2EE6BF12FFA06D98A0864" ++
  "D87602733EC86A64521F2B18177B200CBBE117577A615D6C770988C0BAD946E208E24FA074E5AB3143DB5BFCE0FD108E4B82D120A92108011A723C12A787E6D7" ++
  "88719A10BDBA5B2699C327186AF4E23C1A946834B6150BDA2583E9CA2AD44CE8DBBBC2DB04DE8EF92E8EFC141FBECAA6287C59474E6BC05D99B2964FA090C3A2" ++
  "233BA186515BE7ED1F612970CEE2D7AFB81BDD762170481CD0069127D5B05AA993B4EA988D8FDDC186FFB7DC90A6C08F4DF435C934063199FFFFFFFFFFFFFFFF")%string.

(* src/kryptos_dh.c:110-138 *)
Definition modp_6144 : string := (
  "FFFFFFFFFFFFFFFFC90FDAA22168C234C4C6628B80DC1CD129024E088A67CC74020BBEA63B139B22514A08798E3404DDEF9519B3CD3A431B302B0A6DF25F1437" ++
  "4FE1356D6D51C245E485B576625E7EC6F44C42E9A637ED6B0BFF5CB6F406B7EDEE386BFB5A899FA5AE9F24117C4B1FE649286651ECE45B3DC2007CB8A163BF05" ++
  "98DA48361C55D39A69163FA8FD24CF5F83655D23DCA3AD961C62F356208552BB9ED529077096966D670C354E4ABC9804F1746C08CA18217C32905E462E36CE3B" ++
  "E39E772C180E86039B2783A2EC07A28FB5C55DF06F4C52C9DE2BCBF6955817183995497CEA956AE515D2261898FA051015728E5A8AAAC42DAD33170D04507A33" ++
  "A85521ABDF1CBA64ECFB850458DBEF0A8AEA71575D060C7DB3970F85A6E1E4C7ABF5AE8CDB0933D71E8C94E04A25619DCEE3D2261AD2EE6BF12FFA06D98A0864" ++
  "D87602733EC86A64521F2B18177B200CBBE117577A615D6C770988C0BAD946E208E24FA074E5AB3143DB5BFCE0FD108E4B82D120A92108011A723C12A787E6D7" ++
  "88719A10BDBA5B2699C327186AF4E23C1A946834B6150BDA2583E9CA2AD44CE8DBBBC2DB04DE8EF92E8EFC141FBECAA6287C59474E6BC05D99B2964FA090C3A2" ++
  "233BA186515BE7ED1F612970CEE2D7AFB81BDD762170481CD0069127D5B05AA993B4EA988D8FDDC186FFB7DC90A6C08F4DF435C93402849236C3FAB4D27C7026" ++
  "C1D4DCB2602646DEC9751E763DBA37BDF8FF9406AD9E530EE5DB382F413001AEB06A53ED9027D831179727B0865A8918DA3EDBEBCF9B14ED44CE6CBACED4BB1B" ++
  "DB7F1447E6CC254B332051512BD7AF426FB8F401378CD2BF5983CA01C64B92ECF032EA15D1721D03F482D7CE6E74FEF6D55E702F46980C82B5A84031900B1C9E" ++
  "59E7C97FBEC7E8F323A97A7E36CC88BE0F1D45B7FF585AC54BD407B22B4154AACC8F6D7EBF48E1D814CC5ED20F8037E0A79715EEF29BE32806A1D58BB7C5DA76" ++
  "F550AA3D8A1FBFF0EB19CCB1A313D55CDA56C9EC2EF29632387FE8D76E3C0468043E8F663F4860EE12BF2D5B0B7474D6E694F91E6DCC4024FFFFFFFFFFFFFFFF")%string.

(* src/kryptos_dh.c:141-184 *)
Definition modp_8192 : string := (
  "FFFFFFFFFFFFFFFFC90FDAA22168C234C4C6628B80DC1CD129024E088A67CC74020BBEA63B139B22514A08798E3404DDEF9519B3CD3A431B302B0A6DF25F1437" ++
  "4FE1356D6D51C245E485B576625E7EC6F44C42E9A637ED6B0BFF5CB6F406B7EDEE386BFB5A899FA5AE9F24117C4B1FE649286651ECE45B3DC2007CB8A163BF05" ++
  "98DA48361C55D39A69163FA8FD24CF5F83655D23DCA3AD961C62F356208552BB9ED529077096966D670C354E4ABC9804F1746C08CA18217C32905E462E36CE3B" ++
  "E39E772C180E86039B2783A2EC07A28FB5C55DF06F4C52C9DE2BCBF6955817183995497CEA956AE515D2261898FA051015728E5A8AAAC42DAD33170D04507A33" ++
  "A85521ABDF1CBA64ECFB850458DBEF0A8AEA71575D060C7DB3970F85A6E1E4C7ABF5AE8CDB0933D71E8C94E04A25619DCEE3D2261AD2EE6BF12FFA06D98A0864" ++
  "D87602733EC86A64521F2B18177B200CBBE117577A615D6C770988C0BAD946E208E24FA074E5AB3143DB5BFCE0FD108E4B82D120A92108011A723C12A787E6D7" ++
  "88719A10BDBA5B2699C327186AF4E23C1A946834B6150BDA2583E9CA2AD44CE8DBBBC2DB04DE8EF92E8EFC141FBECAA6287C59474E6BC05D99B2964FA090C3A2" ++
  "233BA186515BE7ED1F612970CEE2D7AFB81BDD762170481CD0069127D5B05AA993B4EA988D8FDDC186FFB7DC90A6C08F4DF435C93402849236C3FAB4D27C7026" ++
  "C1D4DCB2602646DEC9751E763DBA37BDF8FF9406AD9E530EE5DB382F413001AEB06A53ED9027D831179727B0865A8918DA3EDBEBCF9B14ED44CE6CBACED4BB1B" ++
  "DB7F1447E6CC254B332051512BD7AF426FB8F401378CD2BF5983CA01C64B92ECF032EA15D1721D03F482D7CE6E74FEF6D55E702F46980C82B5A84031900B1C9E" ++
  "59E7C97FBEC7E8F323A97A7E36CC88BE0F1D45B7FF585AC54BD407B22B4154AACC8F6D7EBF48E1D814CC5ED20F8037E0A79715EEF29BE32806A1D58BB7C5DA76" ++
  "F550AA3D8A1FBFF0EB19CCB1A313D55CDA56C9EC2EF29632387FE8D76E3C0468043E8F663F4860EE12BF2D5B0B7474D6E694F91E6DBE115974A3926F12FEE5E4" ++
  "38777CB6A932DF8CD8BEC4D073B931BA3BC832B68D9DD300741FA7BF8AFC47ED2576F6936BA424663AAB639C5AE4F5683423B4742BF1C978238F16CBE39D652D" ++
  "E3FDB8BEFC848AD922222E04A4037C0713EB57A81A23F0C73473FC646CEA306B4BCBC8862F8385DDFA9D4B7FA2C087E879683303ED5BDD3A062B3CF5B3A278A6" ++
  "6D2A13F83F44F82DDF310EE074AB6A364597E899A0255DC164F31CC50846851DF9AB48195DED7EA1B1D510BD7EE74D73FAF36BC31ECFA268359046F4EB879F92" ++
  "4009438B481C6CD7889A002ED5EE382BC9190DA6FC026E479558E4475677E9AA9E3050E2765694DFC81F56E880B96E7160C980DD98EDD3DFFFFFFFFFFFFFFFFF")%string.

(* 187-194 *)
Definition dh_groups : list string := [modp_1536; modp_2048; modp_3072; modp_4096; modp_6144; modp_8192].
(* 865-921 kryptos_dh_get_modp with p and g given and a group number that is not negative: the number of groups is accepted too and reads
   behind the table. Every group has one entry, so the random index is 0; the sizes in the table are the lengths of the strings. *)
Definition dh_get_modp (bits : N) : outcome (result * option (mp * mp)) :=
  if 6 <? bits then Done (InvalidParams, None)
  else
    match nth_error dh_groups (N.to_nat bits) with
    | None => UB
    | Some p => match hex_value_as_mp (codes p), hex_value_as_mp (codes "2") with Some p, Some g => Done (Success, Some (p, g)) | _, _ => Done (ProcessError, None) end
    end.
