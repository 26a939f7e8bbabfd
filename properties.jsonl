{"id": "C01", "title": "Base16 round trip", "statement": "Decoding the Base16 encoding of any buffer returns exactly that buffer; the encoding is twice as long and uses only 0-9A-F.", "quantifier": "every byte buffer of every length", "why_tests_cant": "the input space is unbounded; tests only sample lengths and byte values", "anchors": ["src/kryptos_base16.c: kryptos_base16_encode, kryptos_base16_decode, kryptos_base16_processor"]}
{"id": "C02", "title": "Base32 round trip and layout", "statement": "Decoding the Base32 encoding of a buffer returns that buffer; the encoding length is 8*ceil(n/5), padded with '=' as in RFC 4648.", "quantifier": "every byte buffer of every length", "why_tests_cant": "five residue classes of length times unbounded contents", "anchors": ["src/kryptos_base32.c: kryptos_base32_encode, kryptos_base32_decode, kryptos_encode_block, kryptos_decode_block"]}
{"id": "C03", "title": "Base32 decoder memory safety", "statement": "The Base32 decoder never writes outside the output buffer it allocates when fed the library's own encoding of a buffer.", "quantifier": "every byte buffer of every length", "why_tests_cant": "a one-byte heap overflow does not change the decoded bytes, so value-comparing tests pass", "anchors": ["src/kryptos_base32.c: kryptos_base32_decode"]}
{"id": "C04", "title": "Base64 round trip and layout", "statement": "Decoding the Base64 encoding of a buffer returns that buffer; the encoding is the RFC 4648 one with length 4*ceil(n/3).", "quantifier": "every byte buffer of every length", "why_tests_cant": "three residue classes of length times unbounded contents", "anchors": ["src/kryptos_base64.c: kryptos_base64_encode, kryptos_base64_decode"]}
{"id": "C05", "title": "UUEncode round trip", "statement": "Decoding the UU encoding of a buffer returns that buffer, and every character of the encoding is a printable character or a newline.", "quantifier": "every non-empty byte buffer of every length", "why_tests_cant": "line structure depends on the length modulo 45 and modulo 3 and on trailing contents", "anchors": ["src/kryptos_uuencode.c: kryptos_uuencode_encode, kryptos_uuencode_decode"]}
{"id": "C06", "title": "Huffman round trip", "statement": "Inflating the deflated form of a buffer returns that buffer whenever deflate succeeds.", "quantifier": "every byte buffer with at least two distinct byte values", "why_tests_cant": "the code tree depends on the whole frequency distribution; the failing inputs are those that contain two particular byte values", "anchors": ["src/kryptos_huffman.c: kryptos_huffman_deflate, kryptos_huffman_inflate"]}
{"id": "C07", "title": "X9.23 padding", "statement": "Padding a buffer to a block size keeps the buffer as prefix, gives the least strictly larger multiple of the block size, and records the pad length in the last byte so that stripping it returns the buffer.", "quantifier": "every buffer, every block size from 1 to 255", "why_tests_cant": "off-by-one at multiples of the block size, for every size", "anchors": ["src/kryptos_padding.c: kryptos_ansi_x923_padding, kryptos_padding"]}
{"id": "C08", "title": "ECB round trip", "statement": "For every block cipher whose block decryption inverts block encryption, ECB decryption of an ECB encryption returns the plaintext.", "quantifier": "every cipher, key, plaintext length and contents", "why_tests_cant": "unbounded plaintext length and cipher choice", "anchors": ["src/kryptos.h: kryptos_meta_block_processing, kryptos_meta_block_processing_epilogue"]}
{"id": "C09", "title": "CBC round trip and chaining", "statement": "CBC decryption of a CBC encryption returns the plaintext, the output is IV followed by the chained blocks of the standard CBC recurrence.", "quantifier": "every cipher, key, IV, plaintext", "why_tests_cant": "chaining makes every block depend on all previous ones", "anchors": ["src/kryptos.h: kryptos_meta_block_processing, src/kryptos_iv_utils.c: kryptos_apply_iv, kryptos_iv_data_flush"]}
{"id": "C10", "title": "OFB round trip", "statement": "OFB decryption of an OFB encryption returns the plaintext although only the block encryption function is used.", "quantifier": "every block function, key, IV, plaintext", "why_tests_cant": "unbounded plaintext length", "anchors": ["src/kryptos.h: kryptos_meta_block_processing", "src/kryptos_types.h: KRYPTOS_IMPL_BLOCK_CIPHER_PROCESSOR"]}
{"id": "C11", "title": "CTR round trip and counter", "statement": "CTR decryption of a CTR encryption returns the plaintext; block i is masked with the encryption of the IV whose last 32 bits are the big-endian starting counter plus i modulo 2^32.", "quantifier": "every block function, IV, starting counter, plaintext (counter wrap included)", "why_tests_cant": "counter wrap needs 2^32 blocks; arbitrary starting counters near the wrap are not tested", "anchors": ["src/kryptos.h: kryptos_meta_block_processing"]}
{"id": "C12", "title": "GCM round trip and detection", "statement": "GCM decryption of a GCM encryption under the same key and AAD returns the plaintext; a ciphertext is decrypted only if its first 16 bytes equal the tag recomputed from key, AAD and the remaining bytes, else the task ends with the GMAC error and no plaintext.", "quantifier": "every block function, key, IV, AAD, plaintext, and every received buffer", "why_tests_cant": "forgeries range over all byte strings", "anchors": ["src/kryptos_gcm_utils.c: kryptos_gcm_auth, kryptos_gcm_verify, kryptos_gcm_tag", "src/kryptos_types.h: KRYPTOS_IMPL_BLOCK_CIPHER_PROCESSOR"]}
{"id": "C13", "title": "GCM binds the AAD length", "statement": "Two different (AAD, ciphertext) splits of the same byte string never share a tag for structural reasons: the length block is an injective encoding of both bit lengths.", "quantifier": "every pair of AAD and ciphertext lengths", "why_tests_cant": "needs multi-megabyte inputs to show a collision", "anchors": ["src/kryptos_gcm_utils.c: kryptos_gcm_ghash"]}
{"id": "C14", "title": "GHASH multiplication is GF(2^128) multiplication", "statement": "The field multiplication behind the GCM tag is the bit-serial multiplication of NIST SP 800-38D: bilinear and with the field's unit as unit.", "quantifier": "all pairs of 128-bit values", "why_tests_cant": "2^256 input pairs", "anchors": ["src/kryptos_gcm_utils.c: kryptos_gcm_gf_mul"]}
{"id": "C15", "title": "Block cipher task dispatch", "statement": "A block cipher task runs the encrypting block function exactly when the action is encrypt or the mode is OFB, CTR or GCM; input sizes, IV handling and result codes follow the documented rules.", "quantifier": "every mode and action combination", "why_tests_cant": "the combination with the 'without random pad' action is not exercised", "anchors": ["src/kryptos_types.h: KRYPTOS_IMPL_BLOCK_CIPHER_PROCESSOR"]}
{"id": "C16", "title": "AES-128/192/256 block decryption inverts encryption", "statement": "For AES-128/192/256, decrypting an encrypted block under the same user key returns the block.", "quantifier": "every user key of every accepted length, every block (and every round count where the API takes one)", "why_tests_cant": "2^(key+block) cases; test vectors cover a handful", "anchors": ["src/kryptos_aes.c"]}
{"id": "C17", "title": "DES and triple DES (EDE) block decryption inverts encryption", "statement": "For DES and triple DES (EDE), decrypting an encrypted block under the same user key returns the block.", "quantifier": "every user key of every accepted length, every block (and every round count where the API takes one)", "why_tests_cant": "2^(key+block) cases; test vectors cover a handful", "anchors": ["src/kryptos_des.c"]}
{"id": "C18", "title": "Blowfish block decryption inverts encryption", "statement": "For Blowfish, decrypting an encrypted block under the same user key returns the block.", "quantifier": "every user key of every accepted length, every block (and every round count where the API takes one)", "why_tests_cant": "2^(key+block) cases; test vectors cover a handful", "anchors": ["src/kryptos_blowfish.c"]}
{"id": "C19", "title": "TEA and XTEA block decryption inverts encryption", "statement": "For TEA and XTEA, decrypting an encrypted block under the same user key returns the block.", "quantifier": "every user key of every accepted length, every block (and every round count where the API takes one)", "why_tests_cant": "2^(key+block) cases; test vectors cover a handful", "anchors": ["src/kryptos_tea.c"]}
{"id": "C20", "title": "RC2 block decryption inverts encryption", "statement": "For RC2, decrypting an encrypted block under the same user key returns the block.", "quantifier": "every user key of every accepted length, every block (and every round count where the API takes one)", "why_tests_cant": "2^(key+block) cases; test vectors cover a handful", "anchors": ["src/kryptos_rc2.c"]}
{"id": "C21", "title": "RC5 block decryption inverts encryption", "statement": "For RC5, decrypting an encrypted block under the same user key returns the block.", "quantifier": "every user key of every accepted length, every block (and every round count where the API takes one)", "why_tests_cant": "2^(key+block) cases; test vectors cover a handful", "anchors": ["src/kryptos_rc5.c"]}
{"id": "C22", "title": "RC6-128/192/256 block decryption inverts encryption", "statement": "For RC6-128/192/256, decrypting an encrypted block under the same user key returns the block.", "quantifier": "every user key of every accepted length, every block (and every round count where the API takes one)", "why_tests_cant": "2^(key+block) cases; test vectors cover a handful", "anchors": ["src/kryptos_rc6.c"]}
{"id": "C23", "title": "IDEA block decryption inverts encryption", "statement": "For IDEA, decrypting an encrypted block under the same user key returns the block.", "quantifier": "every user key of every accepted length, every block (and every round count where the API takes one)", "why_tests_cant": "2^(key+block) cases; test vectors cover a handful", "anchors": ["src/kryptos_idea.c"]}
{"id": "C24", "title": "FEAL block decryption inverts encryption", "statement": "For FEAL, decrypting an encrypted block under the same user key returns the block.", "quantifier": "every user key of every accepted length, every block (and every round count where the API takes one)", "why_tests_cant": "2^(key+block) cases; test vectors cover a handful", "anchors": ["src/kryptos_feal.c"]}
{"id": "C25", "title": "CAST5 block decryption inverts encryption", "statement": "For CAST5, decrypting an encrypted block under the same user key returns the block.", "quantifier": "every user key of every accepted length, every block (and every round count where the API takes one)", "why_tests_cant": "2^(key+block) cases; test vectors cover a handful", "anchors": ["src/kryptos_cast5.c"]}
{"id": "C26", "title": "Camellia block decryption inverts encryption", "statement": "For Camellia, decrypting an encrypted block under the same user key returns the block.", "quantifier": "every user key of every accepted length, every block (and every round count where the API takes one)", "why_tests_cant": "2^(key+block) cases; test vectors cover a handful", "anchors": ["src/kryptos_camellia.c"]}
{"id": "C27", "title": "SAFER K-64 block decryption inverts encryption", "statement": "For SAFER K-64, decrypting an encrypted block under the same user key returns the block.", "quantifier": "every user key of every accepted length, every block (and every round count where the API takes one)", "why_tests_cant": "2^(key+block) cases; test vectors cover a handful", "anchors": ["src/kryptos_saferk64.c"]}
{"id": "C28", "title": "Serpent block decryption inverts encryption", "statement": "For Serpent, decrypting an encrypted block under the same user key returns the block.", "quantifier": "every user key of every accepted length, every block (and every round count where the API takes one)", "why_tests_cant": "2^(key+block) cases; test vectors cover a handful", "anchors": ["src/kryptos_serpent.c"]}
{"id": "C29", "title": "MISTY1 block decryption inverts encryption", "statement": "For MISTY1, decrypting an encrypted block under the same user key returns the block.", "quantifier": "every user key of every accepted length, every block (and every round count where the API takes one)", "why_tests_cant": "2^(key+block) cases; test vectors cover a handful", "anchors": ["src/kryptos_misty1.c"]}
{"id": "C30", "title": "MARS block decryption inverts encryption", "statement": "For MARS, decrypting an encrypted block under the same user key returns the block.", "quantifier": "every user key of every accepted length, every block (and every round count where the API takes one)", "why_tests_cant": "2^(key+block) cases; test vectors cover a handful", "anchors": ["src/kryptos_mars.c"]}
{"id": "C31", "title": "PRESENT block decryption inverts encryption", "statement": "For PRESENT, decrypting an encrypted block under the same user key returns the block.", "quantifier": "every user key of every accepted length, every block (and every round count where the API takes one)", "why_tests_cant": "2^(key+block) cases; test vectors cover a handful", "anchors": ["src/kryptos_present.c"]}
{"id": "C32", "title": "SHACAL-1 and SHACAL-2 block decryption inverts encryption", "statement": "For SHACAL-1 and SHACAL-2, decrypting an encrypted block under the same user key returns the block.", "quantifier": "every user key of every accepted length, every block (and every round count where the API takes one)", "why_tests_cant": "2^(key+block) cases; test vectors cover a handful", "anchors": ["src/kryptos_shacal1.c"]}
{"id": "C33", "title": "NOEKEON (direct and indirect) block decryption inverts encryption", "statement": "For NOEKEON (direct and indirect), decrypting an encrypted block under the same user key returns the block.", "quantifier": "every user key of every accepted length, every block (and every round count where the API takes one)", "why_tests_cant": "2^(key+block) cases; test vectors cover a handful", "anchors": ["src/kryptos_noekeon.c"]}
{"id": "C34", "title": "GOST 28147-89 block decryption inverts encryption", "statement": "For GOST 28147-89, decrypting an encrypted block under the same user key returns the block.", "quantifier": "every user key of every accepted length, every block (and every round count where the API takes one)", "why_tests_cant": "2^(key+block) cases; test vectors cover a handful", "anchors": ["src/kryptos_gost.c"]}
{"id": "C35", "title": "Twofish block decryption inverts encryption", "statement": "For Twofish, decrypting an encrypted block under the same user key returns the block.", "quantifier": "every user key of every accepted length, every block (and every round count where the API takes one)", "why_tests_cant": "2^(key+block) cases; test vectors cover a handful", "anchors": ["src/kryptos_twofish.c"]}
{"id": "C36", "title": "Stream ciphers are involutions", "statement": "Encrypting twice with the same key (and nonce/counter) with ARC4, RABBIT, SEAL, Salsa20 or ChaCha20 returns the input; the output length equals the input length (plus nonce when the library generates one).", "quantifier": "every key, nonce, counter and message", "why_tests_cant": "unbounded message length, partial last blocks", "anchors": ["src/kryptos_arc4.c", "src/kryptos_rabbit.c", "src/kryptos_seal.c", "src/kryptos_salsa20.c", "src/kryptos_chacha20.c"]}
{"id": "C37", "title": "ChaCha20 follows RFC 8439", "statement": "The keystream block function is the RFC 8439 one and byte i of the output is input xor keystream byte i with counter incremented per 64-byte block.", "quantifier": "every 32-byte key, 12-byte nonce, counter, message", "why_tests_cant": "all counters and lengths", "anchors": ["src/kryptos_chacha20.c"]}
{"id": "C38", "title": "Salsa20 core follows the specification", "statement": "The Salsa20 core is ten double rounds of the published quarter-round plus feed-forward, on little-endian words.", "quantifier": "every 64-byte input", "why_tests_cant": "2^512 inputs", "anchors": ["src/kryptos_salsa20_core.c"]}
{"id": "C39", "title": "Hash input padding", "statement": "The block parser of the Merkle-Damgard hashes processes exactly the standard padded message (message, 0x80, zeros, bit length) in order, for every message length.", "quantifier": "every message of every length", "why_tests_cant": "boundary residues modulo the block size times any number of blocks", "anchors": ["src/kryptos_hash_common.c", "src/kryptos_block_parser.c"]}
{"id": "C40", "title": "Hashes compute their standards", "statement": "SHA-1, SHA-224/256, SHA-384/512, MD4, MD5, RIPEMD-128/160 return the digest defined by their specifications.", "quantifier": "every message", "why_tests_cant": "unbounded messages", "anchors": ["src/kryptos_sha1.c", "src/kryptos_sha224_256.c", "src/kryptos_sha384_512.c", "src/kryptos_md4.c", "src/kryptos_md5.c", "src/kryptos_ripemd128_160.c"]}
{"id": "C41", "title": "Incremental hashing equals one-shot hashing", "statement": "Any sequence of updates followed by finalize returns the digest of the concatenation of the chunks.", "quantifier": "every hash, every sequence of chunks including empty ones", "why_tests_cant": "unbounded histories of update calls", "anchors": ["src/kryptos_hash_common.c: kryptos_hash_do_update, kryptos_hash_do_finalize"]}
{"id": "C42", "title": "HMAC follows RFC 2104", "statement": "The MAC prepended by the HMAC task is H((K' xor opad) || H((K' xor ipad) || text)) with K' the key, hashed first if longer than the block, zero padded.", "quantifier": "every hash, key of every length, text", "why_tests_cant": "keys at, below and above the block size for every hash", "anchors": ["src/kryptos_hmac.c: kryptos_hmac"]}
{"id": "C43", "title": "HMAC verification", "statement": "In decrypt direction the HMAC task succeeds exactly when the first h_size bytes of the input equal the HMAC of the rest, then strips them; otherwise it ends with the HMAC error.", "quantifier": "every key and every received buffer", "why_tests_cant": "forgeries range over all byte strings", "anchors": ["src/kryptos_hmac.c: kryptos_hmac", "src/kryptos.h: kryptos_run_cipher_hmac"]}
{"id": "C44", "title": "Encrypt-then-MAC composition", "statement": "Running cipher+MAC in encrypt then decrypt direction returns the plaintext, and the decrypting cipher only ever runs on data whose MAC verified.", "quantifier": "every cipher, MAC, key, message, and received buffer", "why_tests_cant": "forgeries range over all byte strings", "anchors": ["src/kryptos.h: kryptos_run_cipher_hmac, kryptos_run_cipher_poly1305, kryptos_run_cipher_siphash"]}
{"id": "C45", "title": "HKDF follows RFC 5869", "statement": "The derived key is the RFC 5869 extract-then-expand value of the requested length.", "quantifier": "every hash, salt, ikm, info and 1 <= L <= 255*HashLen", "why_tests_cant": "multi-block expansion for all lengths", "anchors": ["src/kryptos_hkdf.c: kryptos_do_hkdf"]}
{"id": "C46", "title": "PBKDF2 follows RFC 8018", "statement": "The derived key is the RFC 8018 PBKDF2 value with HMAC as PRF, of the requested length.", "quantifier": "every hash, password, salt, count >= 1, length >= 1", "why_tests_cant": "iteration counts and lengths unbounded", "anchors": ["src/kryptos_pbkdf2.c: kryptos_do_pbkdf2"]}
{"id": "C47", "title": "HOTP value follows RFC 4226", "statement": "The generated token is the dynamic truncation of HMAC(K, C) modulo 10^digits.", "quantifier": "every secret, counter, digits, hash", "why_tests_cant": "all counters and MAC values", "anchors": ["src/kryptos_hotp.c: kryptos_do_hotp"]}
{"id": "C48", "title": "HOTP validator: acceptance window and no replay", "statement": "A validation accepts exactly when the token is the HOTP value for a counter within the resync window (and throttling is not exhausted); after acceptance the counter is past the matched one so no earlier counter is accepted again.", "quantifier": "every history of validation requests, every window and throttle", "why_tests_cant": "histories are unbounded", "anchors": ["src/kryptos_hotp.c: kryptos_hotp, kryptos_do_hotp"]}
{"id": "C49", "title": "HOTP rejection leaves the moving factor alone", "statement": "A rejected token does not change the server's moving factor.", "quantifier": "every history of validation requests", "why_tests_cant": "needs a state comparison after a failing request", "anchors": ["src/kryptos_hotp.c: kryptos_hotp"]}
{"id": "C50", "title": "TOTP validation window", "statement": "TOTP validation accepts a token exactly when it is the token of the current time step or of the two preceding attempts the code defines, and terminates.", "quantifier": "every clock value, T0, step, token", "why_tests_cant": "all clock values", "anchors": ["src/kryptos_totp.c: kryptos_totp"]}
{"id": "C51", "title": "SipHash-c-d follows the reference", "statement": "The SipHash tag equals the reference SipHash-c-d of the message for every round parameter pair.", "quantifier": "every 16-byte key, message, c, d", "why_tests_cant": "all lengths modulo 8 and all contents", "anchors": ["src/kryptos_siphash.c"]}
{"id": "C52", "title": "Poly1305 task semantics", "statement": "Verification accepts exactly the tag recomputed over nonce and message, round trip returns the message; an unknown action is rejected.", "quantifier": "every key, nonce, message, received buffer", "why_tests_cant": "forgeries range over all byte strings; invalid action values are not tested", "anchors": ["src/kryptos_poly1305.c", "src/kryptos_poly1305_mp.c"]}
{"id": "C53", "title": "OAEP round trip", "statement": "Removing OAEP padding from a padded message with the same hash and label returns the message; a padded message is exactly k bytes long.", "quantifier": "every hash, label, seed, k and message with |m| <= k - 2h - 2", "why_tests_cant": "messages may contain leading 0x00 and 0x01 bytes of any length", "anchors": ["src/kryptos_padding.c: kryptos_apply_oaep_padding, kryptos_drop_oaep_padding, kryptos_do_oaep_mgf"]}
{"id": "C54", "title": "PSS round trip", "statement": "PSS verification accepts the encoding produced by PSS signing for the same message and rejects when the recomputed hash differs.", "quantifier": "every hash, salt, message, size", "why_tests_cant": "salt and mask values are random", "anchors": ["src/kryptos_padding.c: kryptos_pss_encode, kryptos_pss_verify"]}
{"id": "C55", "title": "PEM buffer behaves as a map", "statement": "After any sequence of successful PEM puts of well-formed headers, getting a header returns the data last stored under it and putting an existing header fails and changes nothing.", "quantifier": "every history of puts and gets", "why_tests_cant": "histories, and headers that are prefixes or substrings of each other", "anchors": ["src/kryptos_pem.c: kryptos_pem_put_data, kryptos_pem_get_data, kryptos_find_header"]}
{"id": "C56", "title": "Multiprecision addition and subtraction", "statement": "Addition and subtraction of multiprecision values agree with integer addition and subtraction.", "quantifier": "every pair of values of every size", "why_tests_cant": "carry chains over unbounded digit counts", "anchors": ["src/kryptos_mp.c: kryptos_mp_add, kryptos_mp_sub"]}
{"id": "C57", "title": "Multiprecision multiplication", "statement": "Multiplication of multiprecision values agrees with integer multiplication.", "quantifier": "every pair of values of every size", "why_tests_cant": "carry chains over unbounded digit counts", "anchors": ["src/kryptos_mp.c: kryptos_mp_mul"]}
{"id": "C58", "title": "Multiprecision comparison", "statement": "eq, ne, lt, le, gt, ge agree with integer comparison of the represented values.", "quantifier": "every pair of signed values", "why_tests_cant": "sign and size combinations with leading zero digits", "anchors": ["src/kryptos_mp.c: kryptos_mp_eq, kryptos_mp_get_gt, kryptos_mp_gt, kryptos_mp_lt, kryptos_mp_ge, kryptos_mp_le"]}
{"id": "C59", "title": "Multiprecision shifts", "statement": "Left shift multiplies by 2^k and right shift divides by 2^k rounding down.", "quantifier": "every value and shift amount", "why_tests_cant": "all shift amounts across digit boundaries", "anchors": ["src/kryptos_mp.c: kryptos_mp_lsh, kryptos_mp_rsh_op"]}
{"id": "C60", "title": "Multiprecision division", "statement": "Division returns the Euclidean quotient and remainder: x = q*y + r with 0 <= r < y.", "quantifier": "every x >= 0 and y > 0", "why_tests_cant": "the quotient-digit estimate overflows with probability about 2^-64 on random operands", "anchors": ["src/kryptos_mp.c: kryptos_mp_div"]}
{"id": "C61", "title": "Modular exponentiation", "statement": "Modular exponentiation returns m^e mod n.", "quantifier": "every m, e, n", "why_tests_cant": "exponents unbounded", "anchors": ["src/kryptos_mp.c: kryptos_mp_me_mod_n, kryptos_mp_pow"]}
{"id": "C62", "title": "Greatest common divisor", "statement": "The gcd routine returns the greatest common divisor and terminates.", "quantifier": "every pair of positive values", "why_tests_cant": "termination and unbounded sizes", "anchors": ["src/kryptos_mp.c: kryptos_mp_gcd"]}
{"id": "C63", "title": "Modular inverse", "statement": "When the inverse exists it is returned, reduced; when it does not exist the caller can tell.", "quantifier": "every value and modulus", "why_tests_cant": "failure value is silently usable as a number", "anchors": ["src/kryptos_mp.c: kryptos_mp_modinv, kryptos_mp_modinv_rs"]}
{"id": "C64", "title": "Primality test never rejects primes", "statement": "A prime is never classified as composite by the Miller-Rabin test.", "quantifier": "every prime and every witness choice", "why_tests_cant": "probabilistic test, rare rejections", "anchors": ["src/kryptos_mp.c: kryptos_mp_miller_rabin_test, kryptos_mp_is_prime"]}
{"id": "C65", "title": "Hexadecimal conversion round trip", "statement": "Converting a multiprecision value to hexadecimal and back returns the value.", "quantifier": "every value, both signs", "why_tests_cant": "sign handling at all lengths", "anchors": ["src/kryptos_mp.c: kryptos_mp_value_as_hex, kryptos_hex_value_as_mp"]}
{"id": "C66", "title": "Raw buffer conversion round trip", "statement": "Loading a big-endian byte buffer and reading it back yields the same number.", "quantifier": "every buffer", "why_tests_cant": "all lengths modulo the digit size", "anchors": ["src/kryptos_mp.c: kryptos_raw_buffer_as_mp", "src/kryptos_rsa.c: kryptos_rsa_cipher"]}
{"id": "C67", "title": "Random multiprecision values cover their range", "statement": "Every value of the requested bit size can be produced by the random value generator.", "quantifier": "every bit size and value", "why_tests_cant": "needs reasoning about all outputs of the random source", "anchors": ["src/kryptos_mp.c: kryptos_mp_gen_random"]}
{"id": "C68", "title": "RSA correctness", "statement": "Decrypting an RSA encryption with the matching private key returns the message as a number, for every message below the modulus.", "quantifier": "every key pair with distinct primes, every m < n", "why_tests_cant": "all messages including those not coprime to n", "anchors": ["src/kryptos_rsa.c: kryptos_rsa_cipher"]}
{"id": "C69", "title": "RSA byte round trip", "statement": "The decrypted buffer is the original buffer.", "quantifier": "every message", "why_tests_cant": "messages with leading zero bytes or of length not a multiple of 8", "anchors": ["src/kryptos_rsa.c: kryptos_rsa_cipher"]}
{"id": "C70", "title": "RSA signatures", "statement": "A signature produced by signing verifies under the matching public key, and verification accepts only if s^e mod n is the claimed message representative.", "quantifier": "every key pair and message", "why_tests_cant": "forgeries range over all values", "anchors": ["src/kryptos_rsa.c: kryptos_rsa_sign, kryptos_rsa_verify"]}
{"id": "C71", "title": "Diffie-Hellman agreement", "statement": "Both sides of standard and modified Diffie-Hellman compute the same key g^(ab) mod p.", "quantifier": "every p, g, and secrets", "why_tests_cant": "all secrets", "anchors": ["src/kryptos_dh.c: kryptos_dh_process_stdxchg, kryptos_dh_process_modxchg"]}
{"id": "C72", "title": "ElGamal correctness", "statement": "ElGamal decryption returns the encrypted number.", "quantifier": "every prime p, generator, key, ephemeral, 1 <= m <= p-1", "why_tests_cant": "all ephemerals", "anchors": ["src/kryptos_elgamal.c"]}
{"id": "C73", "title": "DSA completeness", "statement": "A DSA signature produced by signing verifies.", "quantifier": "every valid domain parameters, key, nonce, message", "why_tests_cant": "all nonces", "anchors": ["src/kryptos_dsa.c: kryptos_dsa_sign, kryptos_dsa_verify"]}
{"id": "C74", "title": "DSA rejects out-of-range signatures", "statement": "DSA verification rejects signatures whose r or s is not in [1, q-1].", "quantifier": "every public key, message, signature", "why_tests_cant": "universal forgery with s = 0 exists only at a point no sampling reaches", "anchors": ["src/kryptos_dsa.c: kryptos_dsa_verify", "src/kryptos_mp.c: kryptos_mp_modinv"]}
{"id": "C75", "title": "ECDSA rejects out-of-range signatures", "statement": "ECDSA verification rejects signatures whose r or s is not in [1, q-1].", "quantifier": "every curve, public key, message, signature", "why_tests_cant": "universal forgery with r = s = 0", "anchors": ["src/kryptos_ecdsa.c: kryptos_ecdsa_verify"]}
{"id": "C76", "title": "Elliptic curve scalar multiplication", "statement": "Scalar multiplication is repeated point addition.", "quantifier": "every curve, point, scalar", "why_tests_cant": "all scalars", "anchors": ["src/kryptos_ec_utils.c: kryptos_ec_mul, kryptos_ec_add, kryptos_ec_dbl"]}
{"id": "C77", "title": "Unbiased bounded random numbers", "statement": "The modular random helper returns values below n, each residue having the same number of accepted raw outputs.", "quantifier": "every 1 <= n <= 2^64-1, every raw random stream", "why_tests_cant": "statistical bias of 2^-64 is invisible to tests", "anchors": ["src/kryptos_random.c: kryptos_unbiased_rand_mod_u64"]}
{"id": "C78", "title": "Fortuna generator", "statement": "Output length is as requested, the key is replaced after each request and equal seeds give equal output streams.", "quantifier": "every history of reseed and get-block calls", "why_tests_cant": "histories unbounded", "anchors": ["src/kryptos_fortuna.c"]}
{"id": "C79", "title": "Domain parameter verification", "statement": "DL parameter verification accepts only p,q prime with q | p-1 and g of order dividing q, 1 < g < p-1.", "quantifier": "every p, q, g", "why_tests_cant": "all triples", "anchors": ["src/kryptos_dl_params.c: kryptos_verify_dl_params"]}
{"id": "C80", "title": "Task validation table", "statement": "The task check accepts a task exactly when key, IV, input, mode and direction satisfy the documented requirements of its cipher.", "quantifier": "every combination of task fields", "why_tests_cant": "combinatorial space of fields", "anchors": ["src/kryptos_task_check.c"]}
{"id": "C81", "title": "Freed memory is wiped", "statement": "Freeing a buffer with its size clears every byte of it before release; deleting a multiprecision value clears all of its digits.", "quantifier": "every buffer and value", "why_tests_cant": "memory is unreachable after free, a test cannot look", "anchors": ["src/kryptos_memory.c: kryptos_freeseg", "src/kryptos_mp.c: kryptos_del_mp_value"]}
{"id": "C82", "title": "Byte-order helpers", "statement": "Reading back a big-endian stored word returns the word, for 16, 32, 64 bit words, and the byte order is big endian.", "quantifier": "every word", "why_tests_cant": "2^64 words", "anchors": ["src/kryptos_endianness_utils.c", "src/kryptos_hex.c"]}
{"id": "C83", "title": "Powers of two", "statement": "The power of two helper returns 2^e when 2^e fits in an int and never reads outside its table.", "quantifier": "every int e, negative ones included", "why_tests_cant": "all 2^32 arguments; a read outside the table is silent", "anchors": ["src/kryptos_pw2.c: kryptos_pw2"]}
{"id": "C84", "title": "DJB2", "statement": "The djb2 hash is the fold h*33+b modulo 2^64 from 5381, over exactly the buffer.", "quantifier": "every buffer", "why_tests_cant": "all buffers", "anchors": ["src/kryptos_djb2.c"]}
{"id": "C85", "title": "SHA-3/Keccak sponge", "statement": "SHA-3 and Keccak digests are the sponge construction over Keccak-f[1600] with the domain padding.", "quantifier": "every message", "why_tests_cant": "all lengths modulo the rate", "anchors": ["src/kryptos_keccak.c"]}
{"id": "C86", "title": "BLAKE2/BLAKE3", "statement": "BLAKE2s/b and BLAKE3 digests equal their specifications.", "quantifier": "every message and key", "why_tests_cant": "tree and counter structure for all lengths", "anchors": ["src/kryptos_blake2.c", "src/kryptos_blake3.c"]}
{"id": "C87", "title": "Tiger and Whirlpool", "statement": "Tiger and Whirlpool digests equal their specifications.", "quantifier": "every message", "why_tests_cant": "all lengths", "anchors": ["src/kryptos_tiger.c", "src/kryptos_whirlpool.c"]}
{"id": "C88", "title": "Decoders are memory safe on arbitrary input", "statement": "Decoding an arbitrary byte buffer (Base16, Base32, Base64, UUEncode) never reads or writes outside the buffers involved.", "quantifier": "every byte buffer, well formed or not", "why_tests_cant": "malformed inputs form an unbounded set; out-of-bounds reads are usually silent", "anchors": ["src/kryptos_base32.c:kryptos_base32_decode_buffer", "src/kryptos_base64.c:kryptos_base64_decode_buffer", "src/kryptos_uuencode.c:kryptos_uuencode_decode_buffer"]}
{"id": "C89", "title": "Fresh IV for every encryption", "statement": "Each encryption made with a task context in an IV mode uses its own IV: a task that did not supply one gets a random one, also when the same context is used again.", "quantifier": "every cipher, key, history of encryptions with one task context", "why_tests_cant": "the reuse appears only on the second use of a context and a round trip test does not see it", "anchors": ["src/kryptos.h:kryptos_meta_block_processing_ctr", "src/kryptos_types.h:KRYPTOS_IMPL_BLOCK_CIPHER_SETUP"]}
{"id": "C90", "title": "Decrypting arbitrary bytes is safe", "statement": "Decrypting any byte string with any key ends with a result code; when it succeeds out_size is at most the size of the output buffer, and no store is outside it.", "quantifier": "every cipher, key and received byte string", "why_tests_cant": "attacker chosen ciphertexts are not in the test vectors", "anchors": ["src/kryptos.h:kryptos_meta_block_processing_ecb", "src/kryptos.h:kryptos_meta_block_processing_cbc", "src/kryptos_block_parser.c:kryptos_block_parser"]}
{"id": "C91", "title": "Every byte of a key counts", "statement": "Two different user keys of the same length, within the key size of the cipher, are loaded as different keys.", "quantifier": "every cipher, every pair of keys of every accepted length", "why_tests_cant": "a lost byte shows only for some key lengths and a round trip test does not see it", "anchors": ["src/kryptos.h:kryptos_ld_user_key_byte", "src/kryptos.h:kryptos_ld_user_key_epilogue"]}
{"id": "C92", "title": "Weak DES keys are refused", "statement": "A DES or triple DES task whose key is weak or semi-weak ends with the key error, and no other key is refused.", "quantifier": "every key", "why_tests_cant": "a misspelt table entry passes every test that does not use that very key", "anchors": ["src/kryptos_des.c:kryptos_des_weak_key_detection", "src/kryptos_des.c:kryptos_des_expand_user_key"]}
{"id": "C93", "title": "Key expansion stays inside its arrays", "statement": "No key or round count the library accepts makes the key expansion of a cipher read or write outside its arrays or read uninitialised words.", "quantifier": "every cipher, key of every length, round count and effective key size", "why_tests_cant": "over-reads are usually silent", "anchors": ["src/kryptos_blowfish.c", "src/kryptos_serpent.c", "src/kryptos_mars.c", "src/kryptos_present.c", "src/kryptos_saferk64.c", "src/kryptos_rc2.c", "src/kryptos_rc5.c", "src/kryptos_rc6.c"]}
{"id": "C94", "title": "ARC4 is RC4 and RABBIT is RFC 4503", "statement": "The ARC4 and RABBIT tasks produce the input xor-ed with the key stream of RC4 and of RFC 4503.", "quantifier": "every key of an accepted size, optional IV, message of every length, direction", "why_tests_cant": "key streams for all keys and positions", "anchors": ["src/kryptos_arc4.c: kryptos_arc4_cipher", "src/kryptos_rabbit.c: kryptos_rabbit_cipher"]}
{"id": "C95", "title": "Stream cipher tasks are robust", "statement": "A stream cipher task never reads outside its buffers, leaves no dangling pointer in the task, uses every byte of the key and rejects unknown parameters.", "quantifier": "every task, key, input", "why_tests_cant": "short inputs and over-long keys are outside the test vectors; dangling pointers are silent", "anchors": ["src/kryptos_chacha20.c: kryptos_chacha20_cipher", "src/kryptos_salsa20.c: kryptos_salsa20_cipher", "src/kryptos_rabbit.c: kryptos_rabbit_ld_user_key", "src/kryptos_seal.c: kryptos_seal_ld_userkey"]}
{"id": "C96", "title": "Barrett and Montgomery reductions", "statement": "Both reductions return the remainder of the value by the modulus.", "quantifier": "every value and modulus the reductions accept", "why_tests_cant": "wrong correction steps and shifts only show for rare operands", "anchors": ["src/kryptos_mp.c:kryptos_mp_barrett_reduction", "src/kryptos_mp.c:kryptos_mp_montgomery_reduction"]}
{"id": "C97", "title": "Predefined Diffie-Hellman groups", "statement": "Each predefined group number gives a modulus of the announced number of bits and the generator 2; any other number is refused.", "quantifier": "every group number", "why_tests_cant": "the test suite uses a few groups and no number outside the enumeration", "anchors": ["src/kryptos_dh.c:kryptos_dh_get_modp"]}
{"id": "C98", "title": "ECDSA signatures verify", "statement": "What is signed with a generated ECDSA private key is accepted by the verification with its public key, and the signed message is returned.", "quantifier": "every curve, base point of prime order, key pair, hash function, message and random bytes", "why_tests_cant": "keys, nonces and messages form an unbounded set; rare nonces give s = 0", "anchors": ["src/kryptos_ecdsa.c:kryptos_ecdsa_mk_key_pair", "src/kryptos_ecdsa.c:kryptos_ecdsa_sign", "src/kryptos_ecdsa.c:kryptos_ecdsa_verify"]}
{"id": "C99", "title": "ECDH agreement", "statement": "After the three calls of an ECDH exchange both sides hold the same key, the x coordinate of the product of both secrets with the base point.", "quantifier": "every curve, base point, pair of secrets", "why_tests_cant": "all pairs of secrets", "anchors": ["src/kryptos_ecdh.c:kryptos_ecdh_process_xchg"]}
{"id": "C100", "title": "bcrypt", "statement": "The bcrypt call returns the 60 characters of the standard for its password, salt and cost and refuses other parameters; verification accepts a string exactly if it is the bcrypt text of the password under some salt and cost, and is memory safe on every string.", "quantifier": "every cost, salt, password of bytes, and every string offered as a hash", "why_tests_cant": "hashes, salts and passwords are unbounded in number; malformed hashes and passwords with zero bytes are outside the test vectors", "anchors": ["src/kryptos_blowfish.c:kryptos_bcrypt", "src/kryptos_blowfish.c:kryptos_bcrypt_verify", "src/kryptos_blowfish.c:kryptos_eks_blowfish_setup"]}
{"id": "C101", "title": "AES is FIPS 197", "statement": "Under a key of 16, 24 or 32 bytes the AES-128, AES-192 and AES-256 tasks produce the padded input in the chosen mode of operation over the cipher of FIPS 197, and decrypt what a FIPS 197 implementation encrypted.", "quantifier": "every key of the standard size, IV, text, mode ECB, CBC, OFB, CTR", "why_tests_cant": "interoperability for 2^256 keys; a round trip test accepts any wrong but invertible cipher", "anchors": ["src/kryptos_aes.c:kryptos_aes128_cipher", "src/kryptos_aes.c:kryptos_aes192_cipher", "src/kryptos_aes.c:kryptos_aes256_cipher", "src/kryptos_aes.c:kryptos_aes_block_encrypt"]}
{"id": "C102", "title": "TEA, XTEA and IDEA are the published ciphers", "statement": "Under a 16-byte key the TEA, XTEA (any positive round count) and IDEA tasks produce the padded input in the chosen mode of operation over the published cipher, and decrypt what another implementation of it encrypted.", "quantifier": "every 16-byte key, IV, text, round count, mode ECB, CBC, OFB, CTR", "why_tests_cant": "interoperability for 2^128 keys; a round trip test accepts any wrong but invertible cipher", "anchors": ["src/kryptos_tea.c:kryptos_tea_block_encryption", "src/kryptos_xtea.c:kryptos_xtea_block_encrypt", "src/kryptos_idea.c:kryptos_idea_block_encrypt", "src/kryptos_idea.c:kryptos_idea_key_expander"]}
{"id": "C103", "title": "PRESENT is the published cipher", "statement": "Under a key of 10 or 16 bytes the PRESENT-80 and PRESENT-128 tasks produce the padded input in the chosen mode of operation over the cipher of the CHES 2007 paper, and decrypt what another implementation of it encrypted.", "quantifier": "every key of the standard size, IV, text, mode ECB, CBC, OFB, CTR", "why_tests_cant": "interoperability for 2^128 keys; a round trip test accepts any wrong but invertible cipher", "anchors": ["src/kryptos_present.c:kryptos_present_block_encrypt", "src/kryptos_present.c:kryptos_present_key_sched", "src/kryptos_present.c:kryptos_present_pLayer"]}
{"id": "C104", "title": "RC5 and RC6 are the published ciphers", "statement": "The RC5 task (keys of 1 to 64 bytes) and the RC6-128, RC6-192 and RC6-256 tasks (keys of 16, 24, 32 bytes) produce the padded input in the chosen mode of operation over RC5-32/r/b and RC6-32/r/b of the papers, for every round count they accept, and decrypt what another implementation encrypted.", "quantifier": "every key, IV, text, round count, mode ECB, CBC, OFB, CTR", "why_tests_cant": "interoperability for all keys and round counts; a round trip test accepts any wrong but invertible cipher", "anchors": ["src/kryptos_rc5.c:kryptos_rc5_ksched", "src/kryptos_rc5.c:kryptos_rc5_block_encrypt", "src/kryptos_rc6.c:kryptos_rc6_ksched", "src/kryptos_rc6.c:kryptos_rc6_block_encrypt"]}
{"id": "C105", "title": "Blowfish is the published cipher", "statement": "Under a key of 1 to 56 bytes the Blowfish task produces the padded input in the chosen mode of operation over the published cipher, whose key is repeated byte by byte, and decrypts what another implementation of it encrypted.", "quantifier": "every key of 1 to 56 bytes, IV, text, mode ECB, CBC, OFB, CTR", "why_tests_cant": "interoperability for 2^448 keys; a round trip test accepts any wrong but invertible cipher", "anchors": ["src/kryptos_blowfish.c:kryptos_blowfish_puff_up", "src/kryptos_blowfish.c:kryptos_blowfish_block_encrypt"]}
{"id": "C106", "title": "NOEKEON is the published cipher", "statement": "Under a 16-byte key the NOEKEON task (indirect key mode) and the NOEKEON direct mode task produce the padded input in the chosen mode of operation over the published cipher, and decrypt what another implementation of it encrypted.", "quantifier": "every 16-byte key, IV, text, mode ECB, CBC, OFB, CTR", "why_tests_cant": "interoperability for 2^128 keys; a round trip test accepts any wrong but invertible cipher", "anchors": ["src/kryptos_noekeon.c:kryptos_noekeon_block_encrypt", "src/kryptos_noekeon.c:kryptos_noekeon_Gamma", "src/kryptos_noekeon.c:kryptos_noekeon_Theta"]}
{"id": "C107", "title": "SHACAL-1 and SHACAL-2 are the published ciphers", "statement": "Under a key of at most 64 bytes the SHACAL-1 and SHACAL-2 tasks produce the padded input in the chosen mode of operation over the published ciphers, which are the steps of SHA-1 and SHA-256 with the zero-filled key as the message block, and decrypt what another implementation of them encrypted.", "quantifier": "every key of 1 to 64 bytes, IV, text, mode ECB, CBC, OFB, CTR", "why_tests_cant": "interoperability for 2^512 keys; a round trip test accepts any wrong but invertible cipher", "anchors": ["src/kryptos_shacal1.c:kryptos_shacal1_block_encrypt", "src/kryptos_shacal1.c:kryptos_shacal1_key_sched", "src/kryptos_shacal2.c:kryptos_shacal2_block_encrypt", "src/kryptos_shacal2.c:kryptos_shacal2_key_sched"]}
