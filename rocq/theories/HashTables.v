(* The tables of the SHA-2 code are the constants of FIPS 180-4. *)
From Verif Require Import Words HashModel HashSpec.
Open Scope N_scope.

Lemma primes_410 : filter prime (seq 0 410) = [2; 3; 5; 7; 11; 13; 17; 19; 23; 29; 31; 37; 41; 43; 47; 53; 59; 61; 67; 71; 73; 79; 83; 89; 97; 101; 103; 107; 109; 113; 127; 131; 137; 139; 149; 151; 157; 163; 167; 173; 179; 181; 191; 193; 197; 199; 211; 223; 227; 229; 233; 239; 241; 251; 257; 263; 269; 271; 277; 281; 283; 293; 307; 311; 313; 317; 331; 337; 347; 349; 353; 359; 367; 373; 379; 383; 389; 397; 401; 409]%nat.
Proof. vm_compute. reflexivity. Qed.
Lemma sha256_K_eq : K SHA32 = sha256_K.
Proof. unfold SHA32, first_primes. rewrite primes_410. vm_compute. reflexivity. Qed.
Lemma sha512_K_eq : K SHA64 = sha512_K.
Proof. unfold SHA64, first_primes. rewrite primes_410. vm_compute. reflexivity. Qed.
Lemma sha256_init_eq : SHA256_init = sha256_init.
Proof. unfold SHA256_init, first_primes. rewrite primes_410. vm_compute. reflexivity. Qed.
Lemma sha512_init_eq : SHA512_init = sha512_init.
Proof. unfold SHA512_init, first_primes. rewrite primes_410. vm_compute. reflexivity. Qed.
Lemma sha384_init_eq : SHA384_init = sha384_init.
Proof. unfold SHA384_init, first_primes. rewrite primes_410. vm_compute. reflexivity. Qed.
Lemma sha224_init_eq : SHA224_init = sha224_init.
Proof. unfold SHA224_init. rewrite sha384_init_eq. vm_compute. reflexivity. Qed.
