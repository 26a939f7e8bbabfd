# A Rocq model of kryptos

The code under /repo (rafael-santiago/kryptos, C) is modelled as total computable Gallina
functions and the properties of `properties.jsonl` are proved about that model.
`MANIFEST.json` maps each property to its theorems.

## Conventions of the model

* Bytes and machine words are `N`; every definition that wraps says so with an explicit
  `mod 2^k` or mask. Buffers are `list N`; lengths and indices are `nat`.
  The configuration modelled is the default 64-bit one (64-bit multiprecision digits).
* Undefined behaviour (out-of-bounds access, use of a NULL or uninitialised value, division by
  zero, over-long shift) is a separate outcome `UB` of the model wherever the property is about it; a
  theorem that relies on its absence states the precondition.
* Memory allocation succeeds and the operating system's random source is an arbitrary stream
  (a universally quantified parameter).
* Each definition cites the file and lines of /repo it models; simplifications are named there.
* Proofs are kept out of `*Model.v`. Specifications written from the standards, independent
  of the model, are in `*Spec.v`. Property theorems are in `*Props.v`, with an `Example` showing
  that the hypotheses can be met and `Print Assumptions`.
* A property that is false of the code is stated as `..._refuted` with a witness, next to the
  strongest `..._partial` positive statement.

## Trusted base

* Coq 8.16.1's kernel (including `vm_compute`).
* `Print Assumptions` stands under every property theorem and answers "Closed under the global
  context" for all of them: no axiom is used, neither of the standard library nor of ours.
  (The checker lists seven `Coq.ssr.ssrunder` module fields because some file loads ssreflect's
  library; no theorem rests on them.)
* The reading of the C code by hand; tables are transcribed by script from the C text and checked
  by known-answer Examples.
* Properties of the host that the model fixes: little-endian memory where the code copies digits or
  size fields with memcpy/memcmp (multiprecision digits, PEM number images, the Huffman size
  field); `size_t` and pointers of 64 bits; `int` of 32 bits; two's complement conversions.
* Rotations of a 32-bit word by a data dependent amount of 0 (RC5, RC6, CAST5, MARS) are written in
  the code as `w << 0 | w >> 32`, whose second half C leaves undefined; the model takes them as the
  rotation by 0 that every compiler gives. Rabbit's signed intermediate products and GOST's signed
  s-box shift are taken with the wrapping value.
* Buffers have fewer than 2^60 bytes.

## What is modelled

| part of the code | model | notes |
|---|---|---|
| base16, base32, base64, uuencode, huffman, pem, hex | EncModel, HuffModel, PemModel, UtilModel | whole files |
| block_parser, iv_utils, padding (X9.23, OAEP, PSS), gcm_utils, the mode macros of kryptos.h and kryptos_types.h | ModeModel, PadModel | every mode; the GCM field arithmetic bit by bit |
| AES, Blowfish, Camellia, CAST5, DES/3DES/3DES-EDE, FEAL, GOST, IDEA, MARS, MISTY1, NOEKEON, PRESENT, RC2, RC5, RC6, SAFER K-64, Serpent, SHACAL-1/2, TEA, XTEA, Twofish | one model file each | key schedule and both block functions |
| ARC4, SEAL, Rabbit, ChaCha20, Salsa20, H(Salsa20) core | StreamModel | whole files |
| MD4, MD5, RIPEMD, SHA-1, SHA-2, hash_common, SHA-3/Keccak, BLAKE2, BLAKE3, Tiger, Whirlpool | HashModel, KeccakModel, Blake2Model, Blake3Model, TigerModel, WhirlModel | |
| HMAC, HKDF, PBKDF2, HOTP, TOTP, SipHash, Poly1305 | MacModel, SipModel | |
| kryptos_mp | MpModel, MpModel2 | conversions, comparison, addition, subtraction, multiplication, division, shifts, powers, gcd, inverse, square root free parts, primality tests, Barrett and Montgomery |
| RSA, DSA, ElGamal, DH, ECDSA, ECDH, dl_params, ec_utils | RsaModel, DlModel, DhModel, EcModel | |
| bcrypt (in kryptos_blowfish.c) | BcryptModel | hash and verification |
| task_check, random, fortuna, memory, djb2, pw2, endianness utils | TaskModel, FortunaModel, UtilModel | |

Not modelled: argon2; the standard curve tables (kryptos_curves.c);
ElGamal-OAEP's task wrapper; the 32- and 16-bit digit configurations; the Windows/BSD/kernel
branches of the random and memory sources; timing; failing allocations except `malloc(0)` and
`realloc(p, 0)` where a property depends on them.

## Findings

These are places where the code does not do what a user would rely on. Those that are stated as
theorems carry a `_refuted` suffix or limit a `_partial` statement; the others are only noted.

* Modes: GCM with RC6 computes the hash key and the tag mask with the decryption function; GCM with
  `EncryptWithoutRandomPad` returns success without a tag, and ECB/CBC with it run the decryption block
  function; cipher specific `InvalidParams` results become `ProcessError` in the epilogue; 2 MiB can move from GCM's associated data to the
  ciphertext without changing the tag, because the length field is cut (C13); keys longer than the cipher's are cut silently.
* Encodings: Base32 and UU decoders read and write outside their buffers on malformed input, the Base32 decoder also on its
  own encoder's output for some lengths (C03); the encoding
  tasks' result codes do not reflect failure. Huffman never restores '0' and '1' bytes, inflate is unsafe on
  arbitrary input and a buffer of one repeated value is not compressed.
* Hashes: messages that fill whole blocks are not padded at all (MD4, MD5, RIPEMD, SHA-1, SHA-2, Tiger, Whirlpool), so
  collisions can be written down; SHA-384 and SHA-512 leave only eight bytes for the length when 112 to 119 bytes
  are in the last block; BLAKE2s of 4 GiB and more drops the counter's high word; the block size reported for BLAKE2bN is 64
  instead of 128, so its HMAC is not the standard's; BLAKE3 of an empty message shifts a 32-bit word by 32; the
  BLAKE3 key derivation ignores all chunks of the context but the last when there is an odd number (3, 5, ...)
  of them; its buffer is rounded up to 32 bytes; Tiger's padding spoils one word for lengths of
  48 to 55 bytes modulo 64.
* MACs: because whole-block messages are hashed without padding (C39), HMAC tags can be forged without the key. A
  rejected HOTP token advances the counter (C49); TOTP accepts the token of a future step on its third attempt when
  the start time is not zero, and a step of zero divides by zero (C50).
* Public keys: RSA's output is always a multiple of eight bytes, so zeros appear before the message and its byte round trip fails (C69); DSA and ECDSA verify without range checks on r and s, and R.x
  is not reduced; random scalars for EC fill only 32 bits of each 64-bit digit; the DH receiver does not check the peer's
  value, ECDH does not check that the point is on the curve; ElGamal key generation dereferences NULL after failing
  parameters; RSA's choice of e sign-extends a byte shifted by 24; OAEP removal reads one byte past the
  block when no separator is present, and past a block that is shorter than the modulus; PSS clears 8
  bits and is sized by the message.
* Memory and randomness: `kryptos_freeseg` wipes what it is told the size of, but freeing a multiprecision value clears only one
  byte in eight (C81); HKDF
  frees its temporary with size 0; `newseg` returns NULL if locking fails; Fortuna's
  temporary buffers are only partly wiped.
* Task checks: ElGamal-OAEP is not excluded from the IV check; Rabbit accepts a NULL IV with size 8.
* bcrypt: verification reads past a hash of 23 to 30 characters, past its decoding table on a byte 255, and writes out of
  bounds on 17 pads; a password, a zero byte and the password again has the hash of the password (C100).

## Plan per property

| id | property | model and proof |
|---|---|---|
| C01 | Base16 round trip | `base16_encode/decode` as list functions over bytes (N); round trip by list induction, alphabet by finite sweep. |
| C02 | Base32 round trip and layout | 5-byte group model of encoder/decoder with the C shift/mask arithmetic; spec = bit-string regrouping; proof by induction on groups with a bit lemma per group. |
| C03 | Base32 decoder memory safety | decoder output is a write log (highest index written) compared with the allocated size; expected refuted for lengths divisible by 5, proved for the others. |
| C04 | Base64 round trip and layout | 3-byte group model, same technique as C02. |
| C05 | UUEncode round trip | line-structured encoder, decoder with its tail stripping; induction on 45-byte lines. |
| C06 | Huffman round trip | frequency list, tree building, code table, bit packing, tree parser; round trip by induction on the bit string for prefix trees, refuted for bytes '0'/'1'. |
| C07 | X9.23 padding | list model, arithmetic by lia. |
| C08 | ECB round trip | modes generic over a Section block cipher (bs, enc, dec) with the hypothesis dec (enc b) = b; induction over blocks. |
| C09 | CBC round trip and chaining | same model; spec recurrence in ModeSpec; induction over blocks. |
| C10 | OFB round trip | same. |
| C11 | CTR round trip and counter | same; counter arithmetic modulo 2^32 explicit. |
| C12 | GCM round trip and detection | tag/ghash model over 128-bit N; gcm_verify is an equality test; round trip from C11 + tag equality. |
| C13 | GCM binds the AAD length | length-block model with its literal mask; expected refuted by two inputs with equal tag. |
| C14 | GHASH multiplication is GF(2^128) multiplication | gf_mul loop vs polynomial spec over bits; bilinearity by induction on the loop. |
| C15 | Block cipher task dispatch | the processor macro as a function of a task record. |
| C16 | AES-128/192/256 block decryption inverts encryption | literal model of key schedule and block function over N words (tables transcribed by script from the C source); inverse proof by round/Feistel lemmas, S-box bijectivity by complete 256-entry sweep; known-answer Examples check the transcription. |
| C17 | DES and triple DES (EDE) block decryption inverts encryption | literal model of key schedule and block function over N words (tables transcribed by script from the C source); inverse proof by round/Feistel lemmas, S-box bijectivity by complete 256-entry sweep; known-answer Examples check the transcription. |
| C18 | Blowfish block decryption inverts encryption | literal model of key schedule and block function over N words (tables transcribed by script from the C source); inverse proof by round/Feistel lemmas, S-box bijectivity by complete 256-entry sweep; known-answer Examples check the transcription. |
| C19 | TEA and XTEA block decryption inverts encryption | literal model of key schedule and block function over N words (tables transcribed by script from the C source); inverse proof by round/Feistel lemmas, S-box bijectivity by complete 256-entry sweep; known-answer Examples check the transcription. |
| C20 | RC2 block decryption inverts encryption | literal model of key schedule and block function over N words (tables transcribed by script from the C source); inverse proof by round/Feistel lemmas, S-box bijectivity by complete 256-entry sweep; known-answer Examples check the transcription. |
| C21 | RC5 block decryption inverts encryption | literal model of key schedule and block function over N words (tables transcribed by script from the C source); inverse proof by round/Feistel lemmas, S-box bijectivity by complete 256-entry sweep; known-answer Examples check the transcription. |
| C22 | RC6-128/192/256 block decryption inverts encryption | literal model of key schedule and block function over N words (tables transcribed by script from the C source); inverse proof by round/Feistel lemmas, S-box bijectivity by complete 256-entry sweep; known-answer Examples check the transcription. |
| C23 | IDEA block decryption inverts encryption | literal model of key schedule and block function over N words (tables transcribed by script from the C source); inverse proof by round/Feistel lemmas, S-box bijectivity by complete 256-entry sweep; known-answer Examples check the transcription. |
| C24 | FEAL block decryption inverts encryption | literal model of key schedule and block function over N words (tables transcribed by script from the C source); inverse proof by round/Feistel lemmas, S-box bijectivity by complete 256-entry sweep; known-answer Examples check the transcription. |
| C25 | CAST5 block decryption inverts encryption | literal model of key schedule and block function over N words (tables transcribed by script from the C source); inverse proof by round/Feistel lemmas, S-box bijectivity by complete 256-entry sweep; known-answer Examples check the transcription. |
| C26 | Camellia block decryption inverts encryption | literal model of key schedule and block function over N words (tables transcribed by script from the C source); inverse proof by round/Feistel lemmas, S-box bijectivity by complete 256-entry sweep; known-answer Examples check the transcription. |
| C27 | SAFER K-64 block decryption inverts encryption | literal model of key schedule and block function over N words (tables transcribed by script from the C source); inverse proof by round/Feistel lemmas, S-box bijectivity by complete 256-entry sweep; known-answer Examples check the transcription. |
| C28 | Serpent block decryption inverts encryption | literal model of key schedule and block function over N words (tables transcribed by script from the C source); inverse proof by round/Feistel lemmas, S-box bijectivity by complete 256-entry sweep; known-answer Examples check the transcription. |
| C29 | MISTY1 block decryption inverts encryption | literal model of key schedule and block function over N words (tables transcribed by script from the C source); inverse proof by round/Feistel lemmas, S-box bijectivity by complete 256-entry sweep; known-answer Examples check the transcription. |
| C30 | MARS block decryption inverts encryption | literal model of key schedule and block function over N words (tables transcribed by script from the C source); inverse proof by round/Feistel lemmas, S-box bijectivity by complete 256-entry sweep; known-answer Examples check the transcription. |
| C31 | PRESENT block decryption inverts encryption | literal model of key schedule and block function over N words (tables transcribed by script from the C source); inverse proof by round/Feistel lemmas, S-box bijectivity by complete 256-entry sweep; known-answer Examples check the transcription. |
| C32 | SHACAL-1 and SHACAL-2 block decryption inverts encryption | literal model of key schedule and block function over N words (tables transcribed by script from the C source); inverse proof by round/Feistel lemmas, S-box bijectivity by complete 256-entry sweep; known-answer Examples check the transcription. |
| C33 | NOEKEON (direct and indirect) block decryption inverts encryption | literal model of key schedule and block function over N words (tables transcribed by script from the C source); inverse proof by round/Feistel lemmas, S-box bijectivity by complete 256-entry sweep; known-answer Examples check the transcription. |
| C34 | GOST 28147-89 block decryption inverts encryption | literal model of key schedule and block function over N words (tables transcribed by script from the C source); inverse proof by round/Feistel lemmas, S-box bijectivity by complete 256-entry sweep; known-answer Examples check the transcription. |
| C35 | Twofish block decryption inverts encryption | literal model of key schedule and block function over N words (tables transcribed by script from the C source); inverse proof by round/Feistel lemmas, S-box bijectivity by complete 256-entry sweep; known-answer Examples check the transcription. |
| C36 | Stream ciphers are involutions | keystream functions modelled, xor involution on lists. |
| C37 | ChaCha20 follows RFC 8439 | literal model vs independent RFC spec; proof by unfolding the column/diagonal rounds. |
| C38 | Salsa20 core follows the specification | literal model vs independent spec. |
| C39 | Hash input padding | hash_common/block_parser state machine; induction over remaining message length. |
| C40 | Hashes compute their standards | literal compression function models vs separate spec written from the standards. |
| C41 | Incremental hashing equals one-shot hashing | update/finalize state machine over chunk lists; induction. |
| C42 | HMAC follows RFC 2104 | model generic over a Section hash; spec from RFC 2104. |
| C43 | HMAC verification | same model, decrypt direction. |
| C44 | Encrypt-then-MAC composition | pipeline model over abstract cipher and MAC tasks. |
| C45 | HKDF follows RFC 5869 | loop model vs RFC spec; induction on block counter. |
| C46 | PBKDF2 follows RFC 8018 | loop model vs RFC spec. |
| C47 | HOTP value follows RFC 4226 | truncation arithmetic vs RFC spec. |
| C48 | HOTP validator: acceptance window and no replay | step function on (counter, throttle) states; histories as lists. |
| C49 | HOTP rejection leaves the moving factor alone | expected refuted. |
| C50 | TOTP validation window | validation loop model; case analysis. |
| C51 | SipHash-c-d follows the reference | literal model vs spec. |
| C52 | Poly1305 task semantics | task-level model over abstract tag; refutation for unknown action. |
| C53 | OAEP round trip | byte-list model over abstract hash. |
| C54 | PSS round trip | same. |
| C55 | PEM buffer behaves as a map | byte-level header search automaton and put/get; refinement to a finite map for headers without '-' and newline; refuted for arbitrary headers. |
| C56 | Multiprecision addition and subtraction | digit-list model (base 2^64) with sign; value function to Z; induction on digits. |
| C57 | Multiprecision multiplication | same. |
| C58 | Multiprecision comparison | bitwise comparison loop; proved for non-negative values, refuted for signed. |
| C59 | Multiprecision shifts | digit-list model. |
| C60 | Multiprecision division | literal model of the digit estimation loop; identity proved, remainder bound partial, full statement refuted with witness. |
| C61 | Modular exponentiation | loop model over Z-valued mp operations. |
| C62 | Greatest common divisor | binary gcd loop with fuel; correctness + termination bound. |
| C63 | Modular inverse | modinv model; success case proved, failure case refuted. |
| C64 | Primality test never rejects primes | MR loop model; partial for small 2-adic valuation, refuted at 65537. |
| C65 | Hexadecimal conversion round trip | string model; proved for non-negative, refuted for negative. |
| C66 | Raw buffer conversion round trip | byte-list model. |
| C67 | Random multiprecision values cover their range | model over the random byte stream; refuted. |
| C68 | RSA correctness | Fermat/CRT argument over Z. |
| C69 | RSA byte round trip | refuted; partial statement as numbers. |
| C70 | RSA signatures | from C68. |
| C71 | Diffie-Hellman agreement | power laws. |
| C72 | ElGamal correctness | Fermat. |
| C73 | DSA completeness | order-q subgroup arithmetic. |
| C74 | DSA rejects out-of-range signatures | refuted: universal forgery. |
| C75 | ECDSA rejects out-of-range signatures | refuted: universal forgery. |
| C76 | Elliptic curve scalar multiplication | double-and-add model over an abstract commutative group law plus the concrete formulas. |
| C77 | Unbiased bounded random numbers | rejection sampling as a function of the raw stream; counting proof. |
| C78 | Fortuna generator | state machine over abstract block cipher and hash. |
| C79 | Domain parameter verification | decision function vs spec. |
| C80 | Task validation table | decision function vs spec predicate. |
| C81 | Freed memory is wiped | memory-as-list model; proved for freeseg, refuted for mp values. |
| C82 | Byte-order helpers | word/byte models. |
| C83 | Powers of two | table and index arithmetic; complete case analysis of the remainders. |
| C84 | DJB2 | fold. |
| C85 | SHA-3/Keccak sponge | literal model vs spec. |
| C86 | BLAKE2/BLAKE3 | RFC 7693 over index functions; the mixing function on arrays refines it step by step; byte loops by induction on the blocks. BLAKE3: tree of chunks as a recursive specification, the stack of chaining values as a binary counter. |
| C87 | Tiger and Whirlpool | literal model vs spec. |
| C88 | Decoders are memory safe on arbitrary input | decoder models return UB on out-of-bounds accesses; refuted by witnesses. |
| C89 | Fresh IV for every encryption | task model keeps the iv buffer across runs; refuted for every cipher and key. |
| C90 | Decrypting arbitrary bytes is safe | block loop returns UB on a short block; refuted for every cipher and key. |
| C91 | Every byte of a key counts | exact value of the loaded key words by induction over the key bytes; injective when the last partial word is at most half full, otherwise refuted for every cipher that loads 32-bit words. |
| C92 | Weak DES keys are refused | weakness stated as an involution (or two keys undoing each other), decided on the list of sub-keys; refuted by witnesses for the parity variants and the misspelt table entries. |
| C93 | Key expansion stays inside its arrays | key expansions return UB when they leave their arrays; positive part inside C16-C35, negative part refuted for every over-long key. |
| C94 | ARC4 is RC4 and RABBIT is RFC 4503 | state arrays vs functions of RC4 and RFC 4503, related by induction over rounds and bytes. |
| C95 | Stream cipher tasks are robust | UB and freed-pointer outcomes in the stream models; refuted by witnesses. |
| C96 | Barrett and Montgomery reductions | reductions against x mod m in N/Z: Barrett exact below 2m (and congruent elsewhere), Montgomery by the invariant 2^i*t = x (mod y); heap overflow of the copy as UB. |
| C97 | Predefined Diffie-Hellman groups | table lookup and hexadecimal conversion; sizes and end bits checked by computation for every group; the accepted number behind the table is an UB outcome. |
| C98 | ECDSA signatures verify | ECDSA over the PEM model and the point arithmetic of C76: s k = h + d r modulo q makes u1 G + u2 B = R by the group laws of multiples. |
| C99 | ECDH agreement | the three calls of the exchange on the PEM model; a (b G) = b (a G) from the laws of multiples. |
| C100 | bcrypt | Provos-Mazieres over one flat list of 1042 words; the code's five arrays and its running byte pointers refine it step by step; the 2^cost iterations by induction. Texts: RFC 4648 encoding over the bcrypt alphabet; verification by decoding what was encoded. Refuted: memory safety on malformed hashes, distinct hashes for passwords with zero bytes. |
| C101 | AES is FIPS 197 | FIPS 197 from the field up (AesSpec.v): S-box by inversion and affine map, ShiftRows and MixColumns on s[r,c], key expansion word by word. Tables by complete sweeps of the 256 bytes; the chunked key schedule refines the word by word one by induction; the modes by congruence on blocks. |
| C102 | TEA, XTEA and IDEA are the published ciphers | the published algorithms over numbers (WordCipherSpec.v): sums as multiples of delta, multiplication modulo 2^16+1, the key as one 128-bit number turned left; rounds and key schedule by induction. |
| C103 | PRESENT is the published cipher | the paper over numbers (PresentSpec.v): nibbles and bits summed with their weights, P(i) = 16 i mod 63, the key register one 80- or 128-bit number; layers by a bit argument, the register by induction over the rounds. |
| C104 | RC5 and RC6 are the published ciphers | the papers over numbers modulo 2^32 with arrays as functions (RcSpec.v); the mixing loop by a simulation between the array of the code, whose tail is uninitialised, and those functions, rounds by induction. Keys with an odd number of bytes and RC6-256 with one round are refuted. |
| C105 | Blowfish is the published cipher | the published key schedule over one list of 1042 words (BlowfishSpec.v, with the rounds and the pi tables of BcryptSpec.v); the replacement loop by a simulation between the five arrays of the code and that list. Only keys of whole words: otherwise the code repeats zero-filled words instead of bytes. |
| C106 | NOEKEON is the published cipher | the proposal (NoekeonSpec.v) with Gamma as the S-box table on the 32 bit columns and the round constants as powers in GF(2^8); Gamma bit by bit, rounds by induction, both key modes. |
| C107 | SHACAL-1 and SHACAL-2 are the published ciphers | the ciphers as folds of the SHA-1 and SHA-256 steps of HashSpec.v (ShacalSpec.v) over the zero-filled key; schedule by induction, rounds by a simulation between lists and tuples. Keys of an even number of bytes; a five byte key is refuted. |
