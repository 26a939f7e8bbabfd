(* The task context, its enumerations and the parameter checks done before a cipher runs. *)
From Verif Require Import Words.
Open Scope N_scope.

(* src/kryptos_types.h:137-144 kryptos_cipher_mode_t *)
Inductive cmode := ECB | CBC | OFB | CTR | GCM | ModeNr.

(* src/kryptos_types.h:146-197 kryptos_cipher_t *)
Inductive cipher_id :=
| ARC4 | SEAL | RABBIT | SALSA20 | CHACHA20
| AES128 | AES192 | AES256 | DES | DES3 | DES3EDE | IDEA | RC2 | RC5 | RC6_128 | RC6_192 | RC6_256
| FEAL | CAST5 | CAMELLIA | SAFERK64 | BLOWFISH | SERPENT | TEA | XTEA | MISTY1
| MARS128 | MARS192 | MARS256 | PRESENT | SHACAL1 | SHACAL2 | NOEKEON | NOEKEOND
| GOSTDS | GOST | TWOFISH128 | TWOFISH192 | TWOFISH256
| RSA | RSAOAEP | ELGAMAL | ELGAMALOAEP | RSAEMSAPSS | DSA | ECDSA | CipherNr.

(* src/kryptos_types.h:207-216 kryptos_action_t *)
Inductive action :=
| Encrypt | Decrypt | Encode | Decode | EncryptWithoutRandomPad | GenerateToken | ValidateToken
| ActionNr.

(* src/kryptos_types.h:218-232 kryptos_task_result_t *)
Inductive result :=
| Success | KeyError | ProcessError | InvalidParams | InvalidCipher | HMACError | GMACError
| InvalidSignature | NoSupport | POLY1305Error | SipHashError | InvalidToken | ResultNr.

Scheme Equality for cmode.
Scheme Equality for cipher_id.
Scheme Equality for action.
Scheme Equality for result.

(* src/kryptos_types.h:246-272 struct kryptos_task: the fields the check looks at. A pointer is an
   optional buffer; sizes are separate fields as in C (a caller may set them inconsistently).
   arg[] entries are only tested against NULL by the checks: true stands for non-NULL. *)
Record task := mkTask {
  t_cipher : cipher_id;
  t_mode : cmode;
  t_action : action;
  t_key : option (list N);
  t_key_size : N;
  t_iv : option (list N);
  t_iv_size : N;
  t_in : option (list N);
  t_in_size : N;
  t_arg : list bool
}.

(* a buffer and its size agree *)
Definition sized (b : option (list N)) (n : N) : Prop :=
  match b with Some l => N.of_nat (length l) = n | None => True end.

Definition present (b : option (list N)) (n : N) : bool :=
  match b with Some _ => negb (n =? 0) | None => false end.

(* membership in a list of ciphers: the (cipher != A && cipher != B ...) chains *)
Definition cipher_in (c : cipher_id) (l : list cipher_id) : bool :=
  existsb (cipher_id_beq c) l.

(* the *_BLOCKSIZE macros of the cipher headers, as used by kryptos_task_check_iv_data:
   src/kryptos_task_check.c:360-450. 0 for the ciphers without case (default: return 0). *)
Definition iv_len (c : cipher_id) : N :=
  match c with
  | DES | DES3 | DES3EDE | IDEA | BLOWFISH | FEAL | CAST5 | RC2 | RC5 | SAFERK64 | TEA | XTEA
  | MISTY1 | PRESENT | GOSTDS | GOST => 8
  | CAMELLIA | RC6_128 | RC6_192 | RC6_256 | AES128 | AES192 | AES256 | SERPENT
  | MARS128 | MARS192 | MARS256 | NOEKEON | NOEKEOND | TWOFISH128 | TWOFISH192 | TWOFISH256 => 16
  | SHACAL1 => 20
  | SHACAL2 => 32
  | RABBIT | SALSA20 => 8
  | CHACHA20 => 12
  | _ => 0
  end.

(* src/kryptos_task_check.c:353-456 kryptos_task_check_iv_data *)
Definition check_iv_data (t : task) : bool :=
  if (match t_iv t with None => true | Some _ => false end || (t_iv_size t =? 0))
     && negb (cipher_in (t_cipher t) [RABBIT; SALSA20; CHACHA20])
  then false
  else
    match t_cipher t with
    | RABBIT =>
        (match t_iv t with None => t_iv_size t =? 0 | Some _ => false end)
        || (t_iv_size t =? 8)
    | SALSA20 | CHACHA20 =>
        match t_iv t with
        | None => t_iv_size t =? 0
        | Some _ => t_iv_size t =? iv_len (t_cipher t)
        end
    | c => if iv_len c =? 0 then false else t_iv_size t =? iv_len c
    end.

(* src/kryptos_task_check.c:504-536 kryptos_task_check_rsa_oaep_additional_params *)
Definition check_oaep_args (t : task) : bool :=
  Bool.eqb (nth 0 (t_arg t) false) (nth 1 (t_arg t) false)
  && Bool.eqb (nth 2 (t_arg t) false) (nth 3 (t_arg t) false).

Section Check.
  (* kryptos_pem_get_data(header, key, ...) != NULL for the RSA/ElGamal parameter named by the
     constructor; the PEM code itself is modelled in PemModel.v *)
  Inductive pk_param := RSA_E | RSA_N | RSA_D | ELG_P | ELG_B | ELG_G | ELG_D.
  Variable pem_has : pk_param -> list N -> bool.

  Definition key_bytes (t : task) : list N := match t_key t with Some k => k | None => [] end.

  (* src/kryptos_task_check.c:458-502 kryptos_task_check_rsa_params *)
  Definition check_rsa_params (t : task) : bool :=
    match t_action t with
    | Encrypt => pem_has RSA_E (key_bytes t) && pem_has RSA_N (key_bytes t)
    | _ => pem_has RSA_D (key_bytes t) && pem_has RSA_N (key_bytes t)
    end.

  (* src/kryptos_task_check.c:538-589 kryptos_task_check_elgamal_params *)
  Definition check_elgamal_params (t : task) : bool :=
    match t_action t with
    | Encrypt => pem_has ELG_P (key_bytes t) && pem_has ELG_B (key_bytes t)
                 && pem_has ELG_G (key_bytes t)
    | Decrypt => pem_has ELG_P (key_bytes t) && pem_has ELG_D (key_bytes t)
    | _ => true
    end.

  (* src/kryptos_task_check.c:85-188 kryptos_task_check on a non-NULL task: the value stored in
     ktask->result; the function returns 1 iff it is Success. *)
  Definition task_check (t : task) : result :=
    if negb (present (t_key t) (t_key_size t)) then InvalidParams
    else if cipher_id_beq (t_cipher t) CipherNr then InvalidCipher
    else if negb (cipher_in (t_cipher t)
                    [ARC4; SEAL; RABBIT; SALSA20; CHACHA20; RSA; RSAOAEP; ELGAMAL; ELGAMALOAEP])
            && cmode_beq (t_mode t) ModeNr then InvalidParams
    else if cipher_in (t_cipher t) [NOEKEON; NOEKEOND] && (16 <? t_key_size t) then KeyError
    else if negb (cipher_in (t_cipher t) [ARC4; SEAL; RSA; RSAOAEP; ELGAMAL])
            && (match t_mode t with CBC | OFB | CTR | GCM => true | _ => false end
                || cipher_in (t_cipher t) [RABBIT; SALSA20; CHACHA20])
            && negb (check_iv_data t) then InvalidParams
    else if negb (cipher_in (t_cipher t) [ARC4; SEAL; RABBIT; SALSA20; CHACHA20])
            && negb (match t_action t with
                     | Encrypt | Decrypt | EncryptWithoutRandomPad => true
                     | _ => false
                     end) then InvalidParams
    else if cipher_in (t_cipher t) [RSA; RSAOAEP] && negb (check_rsa_params t) then KeyError
    else if cipher_id_beq (t_cipher t) RSAOAEP && negb (check_oaep_args t) then InvalidParams
    else if cipher_in (t_cipher t) [ELGAMAL; ELGAMALOAEP] && negb (check_elgamal_params t)
         then KeyError
    else if cipher_id_beq (t_cipher t) ELGAMALOAEP && negb (check_oaep_args t) then InvalidParams
    else if negb (present (t_in t) (t_in_size t)) then InvalidParams
    else Success.
End Check.

(* the stream ciphers and the block ciphers of the library *)
Definition stream_ciphers : list cipher_id := [ARC4; SEAL; RABBIT; SALSA20; CHACHA20].
Definition is_block_cipher (c : cipher_id) : bool :=
  negb (cipher_in c (stream_ciphers ++
    [RSA; RSAOAEP; ELGAMAL; ELGAMALOAEP; RSAEMSAPSS; DSA; ECDSA; CipherNr])).
