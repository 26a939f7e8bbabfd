(* RFC 8017 (PKCS #1 v2.2): MGF1, EME-OAEP and EMSA-PSS over a hash function H with digests of hLen bytes. *)
From Verif Require Import Words.
Open Scope N_scope.

(* appendix B.2.1: T = Hash(seed | I2OSP(0, 4)) | ... | Hash(seed | I2OSP(ceil(maskLen / hLen) - 1, 4)); the leading maskLen octets of it *)
Definition MGF1 (H : list N -> list N) (hLen : nat) (seed : list N) (maskLen : nat) : list N :=
  firstn maskLen (concat (map (fun counter => H (seed ++ be_bytes 4 (N.of_nat counter))) (seq 0 ((maskLen + hLen - 1) / hLen)))).

(* section 7.1.1 step 2: lHash = Hash(L), DB = lHash | PS | 0x01 | M, where PS is k - mLen - 2hLen - 2 zeros *)
Definition OAEP_DB (H : list N -> list N) (hLen k : nat) (L M : list N) : list N :=
  H L ++ repeat 0 (k - length M - 2 * hLen - 2) ++ [1] ++ M.
(* dbMask = MGF(seed, k - hLen - 1), maskedDB = DB xor dbMask, seedMask = MGF(maskedDB, hLen), EM = 0x00 | maskedSeed | maskedDB *)
Definition OAEP_mask (H : list N -> list N) (hLen k : nat) (DB seed : list N) : list N :=
  let maskedDB := xorl DB (MGF1 H hLen seed (k - hLen - 1)) in
  let maskedSeed := xorl seed (MGF1 H hLen maskedDB hLen) in
  [0] ++ maskedSeed ++ maskedDB.
Definition OAEP (H : list N -> list N) (hLen k : nat) (L M seed : list N) : list N := OAEP_mask H hLen k (OAEP_DB H hLen k L M) seed.

(* section 9.1.1: M' = eight zeros | Hash(M) | salt, Hd = Hash(M'), DB = PS | 0x01 | salt where PS is emLen - sLen - hLen - 2 zeros,
   maskedDB = DB xor MGF(Hd, emLen - hLen - 1), the leftmost z bits of it set to zero (z = 8 emLen - emBits), EM = maskedDB | Hd | 0xbc *)
Definition clear (z : N) (l : list N) : list N := match l with [] => [] | x :: l => x mod 2 ^ (8 - z) :: l end.
Definition PSS (H : list N -> list N) (hLen : nat) (z : N) (emLen : nat) (M salt : list N) : list N :=
  let Hd := H (repeat 0 8 ++ H M ++ salt) in
  let DB := repeat 0 (emLen - length salt - hLen - 2) ++ [1] ++ salt in
  clear z (xorl DB (MGF1 H hLen Hd (emLen - hLen - 1))) ++ Hd ++ [0xBC].
