{
 "claims": [
  {
   "property": "C01",
   "status": "proved",
   "theorems": [
    "C01_base16_is_rfc4648",
    "C01_base16_roundtrip"
   ],
   "note": ""
  },
  {
   "property": "C02",
   "status": "proved",
   "theorems": [
    "C02_base32_is_rfc4648",
    "C02_base32_roundtrip"
   ],
   "note": ""
  },
  {
   "property": "C03",
   "status": "partial",
   "theorems": [
    "C03_base32_heap_overflow_refuted",
    "C03_base32_in_bounds_partial"
   ],
   "note": "False as stated: the decoder stores one byte past its allocation for every text whose length is a multiple of five; proved in bounds for all other lengths."
  },
  {
   "property": "C04",
   "status": "proved",
   "theorems": [
    "C04_base64_is_rfc4648",
    "C04_base64_encode_in_bounds",
    "C04_base64_roundtrip"
   ],
   "note": ""
  },
  {
   "property": "C05",
   "status": "proved",
   "theorems": [
    "C05_uuencode_roundtrip",
    "C05_uuencode_charset"
   ],
   "note": ""
  },
  {
   "property": "C06",
   "status": "partial",
   "theorems": [
    "huffman_round_trip_partial",
    "huffman_deflate_total",
    "huffman_digits_refuted",
    "huffman_digits_crash_refuted",
    "huffman_inflate_refuted"
   ],
   "note": "Exact: every buffer with two byte values and without the bytes '0' and '1' comes back; no input at all inflates to a buffer containing one of them (refuted). Deflate is defined on every buffer below 2^64 bytes."
  },
  {
   "property": "C07",
   "status": "proved",
   "theorems": [
    "C07_x923_padding",
    "C07_x923_strip"
   ],
   "note": ""
  },
  {
   "property": "C08",
   "status": "proved",
   "theorems": [
    "C08_ecb_round_trip",
    "C08_ecb_is_sp800_38a"
   ],
   "note": ""
  },
  {
   "property": "C09",
   "status": "proved",
   "theorems": [
    "C09_cbc_round_trip",
    "C09_cbc_is_sp800_38a"
   ],
   "note": ""
  },
  {
   "property": "C10",
   "status": "proved",
   "theorems": [
    "C10_ofb_round_trip",
    "C10_ofb_is_sp800_38a"
   ],
   "note": ""
  },
  {
   "property": "C100",
   "status": "partial",
   "theorems": [
    "C100_bcrypt_is_standard",
    "C100_bcrypt_rejects",
    "C100_bcrypt_length",
    "C100_verify_exact",
    "C100_hash_then_verify",
    "C100_verify_defined_partial",
    "C100_verify_defined_refuted",
    "C100_distinct_passwords_refuted",
    "C100_every_password_byte_counts"
   ],
   "note": "The hash and what verification accepts are exact for every cost, salt and password. Memory safety of verification is false of the code for hashes of 23 to 30 characters, with a byte 255 among the first 24 characters after the cost or with 17 pads (refuted); it is proved for the other lengths when the last salt character is not a pad."
  },
  {
   "property": "C101",
   "status": "proved",
   "theorems": [
    "C101_aes_is_fips197",
    "C101_aes_decrypts_fips197",
    "C101_aes_tasks",
    "C101_field_inverse"
   ],
   "note": "Every key of 16, 24 or 32 bytes, every block, every text and IV, in the four plain modes; the specification reproduces the vectors of FIPS 197 appendix C. Keys of other lengths are covered by C16 (round trip) and C91 (loading) only."
  },
  {
   "property": "C102",
   "status": "proved",
   "theorems": [
    "C102_blocks",
    "C102_tasks",
    "C102_delta"
   ],
   "note": "Every 16-byte key, block, text, IV and round count 0 < r < 2^31; the specifications reproduce published vectors. IDEA keys of other lengths are covered by the round trip and key loading properties only."
  },
  {
   "property": "C103",
   "status": "proved",
   "theorems": [
    "C103_blocks",
    "C103_tasks"
   ],
   "note": "Every key of 10 (80-bit) or 16 (128-bit) bytes, block, text and IV in the four plain modes; the specification reproduces a vector of the paper. Keys of other lengths are covered by the round trip and key loading properties only."
  },
  {
   "property": "C104",
   "status": "partial",
   "theorems": [
    "C104_rc5_blocks_partial",
    "C104_rc6_blocks_partial",
    "C104_tasks_partial",
    "C104_rc5_odd_keys_refuted",
    "C104_rc6_one_round_refuted"
   ],
   "note": "Blocks: RC5 with 1 to 398 rounds and every key with an even number of bytes that is not longer than the expanded key; RC6 with every key of 16, 24, 32 bytes and 1 to 398 rounds except RC6-256 with one round. Tasks: the same, RC5 from 7 rounds on. The rest is false of the code where refuted: keys of five and seven bytes are filled up wrongly, RC6-256 with one round mixes too few times, and longer RC5 keys with few rounds use uninitialised words (C21).  Both published vectors are reproduced."
  },
  {
   "property": "C105",
   "status": "partial",
   "theorems": [
    "C105_blocks_partial",
    "C105_tasks_partial"
   ],
   "note": "Every key of 4, 8, ..., 56 bytes, every block, text and IV in the four plain modes. Missing: keys that end inside a word; the code repeats such a key as words filled up with zeros, the paper repeats its bytes. The initial tables (digits of pi) are those of the code."
  },
  {
   "property": "C106",
   "status": "proved",
   "theorems": [
    "C106_blocks",
    "C106_tasks"
   ],
   "note": "Every 16-byte key, block, text and IV in the four plain modes, direct and indirect key mode; the specification reproduces published vectors. Shorter keys are covered by the round trip and key loading properties only."
  },
  {
   "property": "C107",
   "status": "partial",
   "theorems": [
    "C107_blocks_partial",
    "C107_tasks_partial",
    "C107_five_bytes_refuted"
   ],
   "note": "Every key of 2, 4, ..., 64 bytes, every block, text and IV in the four plain modes. Missing: keys with an odd number of bytes; the key loader places the bytes of their last word wrongly, and the statement is false for them (C107_five_bytes_refuted)."
  },
  {
   "property": "C11",
   "status": "proved",
   "theorems": [
    "C11_ctr_round_trip",
    "C11_ctr_is_sp800_38a"
   ],
   "note": ""
  },
  {
   "property": "C12",
   "status": "proved",
   "theorems": [
    "C12_gcm_round_trip",
    "C12_gcm_detection",
    "C12_gcm_tag_is_sp800_38d"
   ],
   "note": "Detection is stated for AAD and ciphertext below 2 MiB, see C13 for longer ones."
  },
  {
   "property": "C13",
   "status": "partial",
   "theorems": [
    "C13_gcm_length_confusion_refuted",
    "C13_gcm_length_block_injective_partial"
   ],
   "note": "False as stated: 2 MiB can move from the AAD to the ciphertext without changing the tag; injective below 2 MiB."
  },
  {
   "property": "C14",
   "status": "proved",
   "theorems": [
    "C14_gf_mul_is_field_product",
    "C14_gf_mul_is_sp800_38d"
   ],
   "note": ""
  },
  {
   "property": "C15",
   "status": "proved",
   "theorems": [
    "C15_block_function_selected",
    "C15_rejected_task_has_no_output",
    "C15_gcm_not_supported"
   ],
   "note": ""
  },
  {
   "property": "C16",
   "status": "proved",
   "theorems": [
    "C16_aes_blocks",
    "C16_aes_modes",
    "C16_aes_gcm"
   ],
   "note": ""
  },
  {
   "property": "C17",
   "status": "proved",
   "theorems": [
    "C17_des_blocks",
    "C17_triple_des_blocks",
    "C17_triple_des_composition",
    "C17_des_modes",
    "C17_triple_des_modes",
    "C17_ede_degenerates"
   ],
   "note": "Includes the weak keys."
  },
  {
   "property": "C18",
   "status": "proved",
   "theorems": [
    "C18_blowfish_blocks",
    "C18_blowfish_modes"
   ],
   "note": "Keys up to 56 bytes; longer ones are C93."
  },
  {
   "property": "C19",
   "status": "proved",
   "theorems": [
    "C19_tea_blocks",
    "C19_xtea_blocks",
    "C19_tea_modes"
   ],
   "note": ""
  },
  {
   "property": "C20",
   "status": "proved",
   "theorems": [
    "C20_rc2_blocks",
    "C20_rc2_modes"
   ],
   "note": "Effective key size 1..1024; 1025 is C93."
  },
  {
   "property": "C21",
   "status": "partial",
   "theorems": [
    "C21_rc5_blocks_partial",
    "C21_rc5_uninitialised_subkeys_refuted",
    "C21_rc5_modes"
   ],
   "note": "False for fewer sub-keys than key words (uninitialised memory is read); proved for all keys that fit, so for every key from 7 rounds on."
  },
  {
   "property": "C22",
   "status": "proved",
   "theorems": [
    "C22_rc6_blocks",
    "C22_rc6_modes"
   ],
   "note": ""
  },
  {
   "property": "C23",
   "status": "proved",
   "theorems": [
    "C23_idea_blocks",
    "C23_idea_modes"
   ],
   "note": ""
  },
  {
   "property": "C24",
   "status": "proved",
   "theorems": [
    "C24_feal_blocks",
    "C24_feal_modes"
   ],
   "note": ""
  },
  {
   "property": "C25",
   "status": "proved",
   "theorems": [
    "C25_cast5_blocks",
    "C25_cast5_modes"
   ],
   "note": ""
  },
  {
   "property": "C26",
   "status": "proved",
   "theorems": [
    "C26_camellia_blocks",
    "C26_camellia_modes",
    "C26_camellia_gcm"
   ],
   "note": ""
  },
  {
   "property": "C27",
   "status": "proved",
   "theorems": [
    "C27_saferk64_blocks",
    "C27_saferk64_modes"
   ],
   "note": "Rounds 1..13; more are C93."
  },
  {
   "property": "C28",
   "status": "proved",
   "theorems": [
    "C28_serpent_blocks",
    "C28_serpent_modes",
    "C28_serpent_gcm"
   ],
   "note": "Keys up to 32 bytes; longer ones are C93."
  },
  {
   "property": "C29",
   "status": "proved",
   "theorems": [
    "C29_misty1_blocks",
    "C29_misty1_modes"
   ],
   "note": ""
  },
  {
   "property": "C30",
   "status": "proved",
   "theorems": [
    "C30_mars_blocks",
    "C30_mars_modes",
    "C30_mars_gcm"
   ],
   "note": "Keys up to 32 bytes; longer ones are C93."
  },
  {
   "property": "C31",
   "status": "proved",
   "theorems": [
    "C31_present_blocks",
    "C31_present_modes"
   ],
   "note": "Keys up to 128 bytes; longer ones are C93."
  },
  {
   "property": "C32",
   "status": "proved",
   "theorems": [
    "C32_shacal_blocks",
    "C32_shacal_modes"
   ],
   "note": ""
  },
  {
   "property": "C33",
   "status": "proved",
   "theorems": [
    "C33_noekeon_blocks",
    "C33_noekeon_modes",
    "C33_noekeon_gcm"
   ],
   "note": ""
  },
  {
   "property": "C34",
   "status": "proved",
   "theorems": [
    "C34_gost_blocks",
    "C34_gost_modes"
   ],
   "note": ""
  },
  {
   "property": "C35",
   "status": "proved",
   "theorems": [
    "C35_twofish_blocks",
    "C35_twofish_modes",
    "C35_twofish_gcm"
   ],
   "note": ""
  },
  {
   "property": "C36",
   "status": "proved",
   "theorems": [
    "C36_arc4_round_trip",
    "C36_rabbit_round_trip",
    "C36_seal_round_trip",
    "C36_chacha20_round_trip",
    "C36_salsa20_round_trip",
    "C36_chacha20_fresh_round_trip"
   ],
   "note": "Key sizes the cipher specifies for RABBIT, CHACHA20 and SALSA20, any key for ARC4 and SEAL."
  },
  {
   "property": "C37",
   "status": "proved",
   "theorems": [
    "C37_chacha20_is_rfc8439",
    "C37_chacha20_fresh_nonce"
   ],
   "note": ""
  },
  {
   "property": "C38",
   "status": "partial",
   "theorems": [
    "C38_salsa20_is_salsa20",
    "C38_short_key_is_doubled_key",
    "C38_short_key_refuted"
   ],
   "note": "True for 32-byte keys. With 16-byte keys the constants of the 32-byte variant are used: refuted, and what is computed instead is proved."
  },
  {
   "property": "C39",
   "status": "partial",
   "theorems": [
    "C39_whole_blocks_unpadded_refuted",
    "C39_collisions_refuted",
    "C39_sha512_short_length_refuted",
    "C40_digest_64_partial",
    "C40_digest_128_partial"
   ],
   "note": "False as stated: a non-empty message that ends at a block boundary is hashed without padding (so every message collides with its own padding), and SHA-384/512 use an 8-byte length field when 112 to 119 bytes are in the last block. All other messages of less than 2^61 bytes are padded as the standards say (C40 theorems)."
  },
  {
   "property": "C40",
   "status": "partial",
   "theorems": [
    "C40_digest_64_partial",
    "C40_digest_128_partial",
    "C40_null_input",
    "C40_digest_refuted",
    "C40_sha384_sha512_refuted"
   ],
   "note": "MD4, MD5, RIPEMD-128/160, SHA-1, SHA-224/256/384/512 equal the standards for all messages of less than 2^61 bytes except those C39 refutes, where the digest differs."
  },
  {
   "property": "C41",
   "status": "partial",
   "theorems": [
    "C41_incremental_is_one_shot_partial",
    "C41_one_shot_returns",
    "C41_two_empty_chunks_refuted"
   ],
   "note": "Proved for every history of updates and finalizes unless a message starts with two empty chunks and realloc(p, 0) releases p (glibc): there the buffer is used after release, refuted."
  },
  {
   "property": "C42",
   "status": "partial",
   "theorems": [
    "C42_hmac_is_rfc2104",
    "C42_hmac_standard_64_partial",
    "C42_hmac_standard_128_partial",
    "C42_hmac_error"
   ],
   "note": "RFC 2104 over the hash function as implemented for every hash, key and non-empty text below 2^60 bytes; over the standard hash wherever C39/C40 allow (text, and keys longer than a block, not ending at a block boundary)."
  },
  {
   "property": "C43",
   "status": "partial",
   "theorems": [
    "C43_hmac_verification",
    "C43_forgery_refuted"
   ],
   "note": "Verification is exactly the comparison with the HMAC of the implemented hash. Because of C39 that HMAC can be forged without the key: refuted for the seven 64-byte-block hashes."
  },
  {
   "property": "C44",
   "status": "proved",
   "theorems": [
    "C44_only_verified_data",
    "C44_round_trip",
    "C44_cipher_failure"
   ],
   "note": "Round trip for every lawful block cipher in ECB/CBC/OFB/CTR with HMAC; the verified-data theorem is for an arbitrary cipher."
  },
  {
   "property": "C45",
   "status": "partial",
   "theorems": [
    "C45_hkdf_is_rfc5869_partial",
    "C45_no_salt_is_zero_salt",
    "C45_out_of_range",
    "C45_empty_ikm_refuted",
    "C45_default_size_refuted"
   ],
   "note": "Missing: empty ikm (refused, refuted) and NULL digest size function (UB, refuted). Over the hash function as implemented (C40)."
  },
  {
   "property": "C46",
   "status": "proved",
   "theorems": [
    "C46_pbkdf2_is_rfc8018",
    "C46_count_zero",
    "C46_null_salt_refuted"
   ],
   "note": "Over the HMAC of the hash function as implemented (C42)."
  },
  {
   "property": "C47",
   "status": "partial",
   "theorems": [
    "C47_hotp_value_partial",
    "C47_init",
    "C47_short_digest_refuted"
   ],
   "note": "For digests of at least 20 bytes, as RFC 4226 requires. MD5-sized digests are accepted by init and truncated partly from the counter bytes: refuted."
  },
  {
   "property": "C48",
   "status": "proved",
   "theorems": [
    "C48_accepts",
    "C48_rejects",
    "C48_decides",
    "C48_no_replay"
   ],
   "note": "No replay holds as long as the 64-bit counter does not wrap."
  },
  {
   "property": "C49",
   "status": "partial",
   "theorems": [
    "C49_rejection_moves_counter_refuted",
    "C49_rejection_partial",
    "C49_lock_out_refuted"
   ],
   "note": "False as stated: a rejected token advances the counter by the resync window, so bad tokens lock out a client in step."
  },
  {
   "property": "C50",
   "status": "partial",
   "theorems": [
    "C50_totp_window",
    "C50_epoch",
    "C50_totp_generates",
    "C50_future_token_refuted",
    "C50_zero_step_refuted"
   ],
   "note": "The exact window is proved for now >= T0 + X. It is the three latest steps for T0 = 0 only; otherwise the third attempt accepts a future step. Step 0 divides by zero."
  },
  {
   "property": "C51",
   "status": "proved",
   "theorems": [
    "C51_siphash_tag",
    "C51_keys",
    "C51_verification",
    "C51_only_verified_data",
    "C51_errors",
    "C51_sum",
    "C51_empty_key_refuted",
    "C51_sum_refuted"
   ],
   "note": "task tag = SipHash-c-d of the paper under the folded 16-byte key; verification iff; refuted: empty key accepted, siphash_sum over-reads short keys and ignores the expansion"
  },
  {
   "property": "C52",
   "status": "partial",
   "theorems": [
    "C52_verification_partial",
    "C52_round_trip_partial",
    "C52_action_refuted",
    "C52_no_key_refuted",
    "C52_multiplication_refuted"
   ],
   "note": "task semantics for any 16-byte tag function; the tag itself is not proved equal to RFC 8439 (its multiplication leaves its array); unknown action and missing key not refused"
  },
  {
   "property": "C53",
   "status": "proved",
   "theorems": [
    "mgf_is_mgf1",
    "oaep_is_standard",
    "oaep_too_long",
    "oaep_round_trip",
    "oaep_drop_sound",
    "oaep_wrong_label",
    "oaep_drop_defined",
    "oaep_overread_refuted"
   ],
   "note": "RFC 8017 EME-OAEP over any hash that the pointers implement; blocks below 2^32 bytes. malloc(0) = NULL is an explicit parameter. Found: unpadding a block whose data block is the label hash followed by zeros reads one byte behind the buffer (oaep_overread_refuted)."
  },
  {
   "property": "C54",
   "status": "proved",
   "theorems": [
    "pss_is_standard",
    "pss_verify_exact",
    "pss_short_refused",
    "pss_round_trip",
    "pss_short_message_refuted",
    "pss_standard_encodings_refuted",
    "rsa_pss_verify_sound"
   ],
   "note": "Accepted encodings are exactly those of RFC 8017 section 9.1 with eight bits cleared instead of at most seven, so standard encodings with a non-zero first byte are refused; the block has the size of the message, so short messages cannot be signed."
  },
  {
   "property": "C55",
   "status": "proved",
   "theorems": [
    "pem_is_a_map",
    "pem_put_refused",
    "pem_numbers",
    "pem_number_image",
    "pem_header_dash_refuted",
    "pem_truncated_refuted",
    "pem_leading_dash_refuted"
   ],
   "note": "Every history of puts with headers free of dashes (all headers the library uses); refuted for headers with dashes, for truncated buffers (undefined behaviour) and for text before the block."
  },
  {
   "property": "C56",
   "status": "proved",
   "theorems": [
    "mp_add_exact",
    "mp_sub_exact",
    "mp_unsigned_add_exact",
    "mp_unsigned_sub_exact",
    "mp_unsigned_add_zero_refuted",
    "mp_unsigned_sub_zero_refuted",
    "mp_add_new_refuted"
   ],
   "note": "Signed addition and subtraction equal the integer operations for every pair of values without a negative zero. The unsigned functions are exact on magnitudes except in the corner cases refuted: 0+0 reads unwritten digits, 0-y is y, and a sum without a destination keeps only data_size bytes."
  },
  {
   "property": "C57",
   "status": "proved",
   "theorems": [
    "mp_mul_exact",
    "mp_unsigned_mul_exact",
    "mp_mul_new_refuted"
   ],
   "note": "Signed and unsigned multiplication; a product without a destination truncates (refuted)."
  },
  {
   "property": "C58",
   "status": "partial",
   "theorems": [
    "mp_equality",
    "mp_order_partial",
    "mp_order_refuted",
    "mp_order_negative_refuted"
   ],
   "note": "Equality is exact for all values; the order is exact for non-negative values. For negative values the property is false of the code (refuted)."
  },
  {
   "property": "C59",
   "status": "proved",
   "theorems": [
    "mp_left_shift",
    "mp_right_shift",
    "mp_right_shift_negative_refuted"
   ],
   "note": "Every value and amount for the left shift; the right shift for non-negative values (it drops the sign, refuted)."
  },
  {
   "property": "C60",
   "status": "partial",
   "theorems": [
    "mp_division_partial",
    "mp_division_one_digit",
    "mp_division_refuted",
    "mp_division_by_zero"
   ],
   "note": "x = q*y + r always; Euclidean for all one-digit divisors and whenever no leading digits are equal on the way; false in general (refuted with a witness)."
  },
  {
   "property": "C61",
   "status": "partial",
   "theorems": [
    "mp_power",
    "mp_modular_power_partial",
    "mp_modular_power_zero_modulus_refuted",
    "mp_modular_power_refuted"
   ],
   "note": "Congruent to m^e for every modulus but 0, equal to m^e mod n for one-digit moduli; the result may be unreduced for larger moduli because of the division (refuted), and modulus 0 is undefined behaviour."
  },
  {
   "property": "C62",
   "status": "proved",
   "theorems": [
    "mp_gcd",
    "mp_gcd_zero_refuted"
   ],
   "note": "Terminates and equals N.gcd for all positive values of any size; with a zero argument it never terminates (refuted for every fuel)."
  },
  {
   "property": "C63",
   "status": "partial",
   "theorems": [
    "mp_inverse_odd",
    "mp_inverse_even_partial",
    "mp_inverse_even_one_digit",
    "mp_inverse_even_refuted"
   ],
   "note": "Odd moduli of any size: total and exact, 0 when there is no inverse. Even moduli: whatever is returned is exact, total for one digit; modulo 2^256 the model reaches undefined behaviour (refuted)."
  },
  {
   "property": "C64",
   "status": "partial",
   "theorems": [
    "miller_rabin_prime_partial",
    "fermat_test_prime_partial",
    "is_prime_prime_partial",
    "is_prime_prime_refuted",
    "is_prime_two_refuted"
   ],
   "note": "One-digit odd primes for all random bytes when the squarings suffice; false for 65537 (witness byte 3) and for 2. Primes of several digits are missing because powers are only congruent there (C61)."
  },
  {
   "property": "C65",
   "status": "proved",
   "theorems": [
    "hex_read_back",
    "hex_read",
    "hex_size_refuted"
   ],
   "note": "Both signs; any string of hex digits denotes its value. The reported size omits the minus sign (hex_size_refuted)."
  },
  {
   "property": "C66",
   "status": "proved",
   "theorems": [
    "raw_buffer_value",
    "raw_buffer_back",
    "task_out_value",
    "raw_buffer_bytes_refuted"
   ],
   "note": "The number is kept; the bytes come back padded with zeros to a multiple of eight (so the bytes are not always the same, refuted)."
  },
  {
   "property": "C67",
   "status": "partial",
   "theorems": [
    "random_covers_partial",
    "random_below",
    "random_covers_refuted"
   ],
   "note": "One-digit bounds up to 256; false in general, every digit carries one random byte only."
  },
  {
   "property": "C68",
   "status": "partial",
   "theorems": [
    "rsa_decrypts_partial"
   ],
   "note": "Every key pair the generator returns from distinct primes of any size: decryption is congruent to the message modulo pq, equal below 2^64. For longer moduli the exponentiation may leave an unreduced number (C61)."
  },
  {
   "property": "C69",
   "status": "partial",
   "theorems": [
    "rsa_bytes_refuted"
   ],
   "note": "False as stated: the output always has a multiple of eight bytes. Proved: it is the message with zero bytes before it (moduli below 2^64)."
  },
  {
   "property": "C70",
   "status": "partial",
   "theorems": [
    "rsa_signature_verifies_partial",
    "rsa_verify_sound",
    "rsa_sign_large_refuted"
   ],
   "note": "Soundness for all buffers and keys. Completeness for moduli below 2^64 and messages below the modulus; messages not below the modulus are signed but their signatures are refused (refuted)."
  },
  {
   "property": "C71",
   "status": "partial",
   "theorems": [
    "dh_standard_agreement_partial",
    "dh_modified_agreement_partial",
    "dh_default_bits_refuted",
    "dh_key_pair_reuse_refuted"
   ],
   "note": "Every p, g, optional q: all calls succeed and both keys are congruent to g^(ab), equal for p below 2^64. Undefined behaviour with the default number of bits (0) and with buffers that are in use (refuted)."
  },
  {
   "property": "C72",
   "status": "partial",
   "theorems": [
    "elgamal_decrypts_partial",
    "elgamal_range",
    "elgamal_key"
   ],
   "note": "Every key pair from a prime p of any size: decryption is congruent to the message modulo p, equal for p below 2^64; other messages are refused."
  },
  {
   "property": "C73",
   "status": "partial",
   "theorems": [
    "dsa_signature_verifies_partial",
    "dsa_verify_exact_partial",
    "dsa_zero_s_refuted"
   ],
   "note": "p and q below 2^64, s not 0. A signature with s = 0 is not retried and does not verify (refuted)."
  },
  {
   "property": "C74",
   "status": "partial",
   "theorems": [
    "dsa_forgery_refuted",
    "dsa_missing_refuted"
   ],
   "note": "False: r = 1, s = 0 is accepted for every message under every key of any size with odd q. A key without P is undefined behaviour."
  },
  {
   "property": "C75",
   "status": "partial",
   "theorems": [
    "ecdsa_forgery_refuted"
   ],
   "note": "False: r = s = 0 is accepted for every message under every key of any size with an odd order."
  },
  {
   "property": "C76",
   "status": "partial",
   "theorems": [
    "ec_add_partial",
    "ec_dbl_partial",
    "ec_mul_partial",
    "ec_mul_repeated_partial",
    "ec_results_unique",
    "ec_zero_b_refuted",
    "ec_dbl_unreduced_refuted"
   ],
   "note": "Every curve over a prime below 2^64 with b not 0, every reduced point on it and every multiplier of any size. Repeated addition follows if the sum of the curve is associative (a hypothesis, met by the example curve by a full check). Missing: longer primes, where the Barrett reduction may leave an unreduced value. (0, 0) on a curve with b = 0 is taken for the point at infinity (refuted)."
  },
  {
   "property": "C77",
   "status": "proved",
   "theorems": [
    "C77_unbiased",
    "C77_large_bound_never_returns_refuted",
    "C77_zero_bound_refuted"
   ],
   "note": "All four widths, every raw stream, 1 <= n < 256^k. Larger bounds never return, 0 divides by zero (refuted)."
  },
  {
   "property": "C78",
   "status": "partial",
   "theorems": [
    "C78_output_length_partial",
    "C78_equal_seeds_equal_streams",
    "C78_key_replaced",
    "C78_forced_reseed",
    "C78_limit",
    "C78_long_seed_refuted",
    "C78_single_byte_seed_refuted"
   ],
   "note": "Every history with seeds of at most 32 bytes; longer seeds make reseed read past the digest (undefined behaviour, refuted). Choosing Fortuna for the library may seed it with one byte (refuted)."
  },
  {
   "property": "C79",
   "status": "partial",
   "theorems": [
    "dl_params_sound_partial",
    "dl_params_complete_partial",
    "dl_params_refuted"
   ],
   "note": "Everything but primality itself, which the probabilistic test does not decide: q = 49 can be accepted (refuted). Completeness for parameters below 2^64."
  },
  {
   "property": "C80",
   "status": "partial",
   "theorems": [
    "C80_block_task_check",
    "C80_stream_task_check_partial",
    "C80_rabbit_null_iv_accepted_refuted"
   ],
   "note": "Block ciphers and four stream ciphers exact; RABBIT accepts a missing iv with a size; public key ciphers not covered."
  },
  {
   "property": "C81",
   "status": "partial",
   "theorems": [
    "C81_freeseg_wipes",
    "C81_mp_value_partly_wiped_partial",
    "C81_mp_value_not_wiped_refuted"
   ],
   "note": "Proved for buffers released with their size. False for multiprecision values: only one byte in eight is cleared."
  },
  {
   "property": "C82",
   "status": "proved",
   "theorems": [
    "C82_big_endian",
    "C82_store_load",
    "C82_small_buffers",
    "C82_hexadecimal"
   ],
   "note": ""
  },
  {
   "property": "C83",
   "status": "proved",
   "theorems": [
    "C83_in_table",
    "C83_power",
    "C83_not_a_number",
    "C83_wraps_refuted"
   ],
   "note": "255 and negative arguments wrap around (refuted as powers)."
  },
  {
   "property": "C84",
   "status": "proved",
   "theorems": [
    "C84_djb2",
    "C84_null"
   ],
   "note": ""
  },
  {
   "property": "C85",
   "status": "proved",
   "theorems": [
    "keccak_is_standard",
    "keccak_output_unique",
    "keccak_null"
   ],
   "note": "All eight hashes, every message of bytes of any length, raw and hexadecimal output, against FIPS 202 stated over bit strings."
  },
  {
   "property": "C86",
   "status": "partial",
   "theorems": [
    "blake2_is_standard_partial",
    "blake2N_is_standard_partial",
    "blake2_refuses",
    "blake3_is_standard_partial",
    "blake3N_is_standard_partial",
    "blake3_refuses",
    "blake3_empty_refuted",
    "blake3_derive_key_partial",
    "blake3_context_collision_refuted"
   ],
   "note": "BLAKE2b and BLAKE2s with every key, output size and message, raw and hexadecimal, against RFC 7693 stated over index functions. BLAKE3 hash, keyed hash and key derivation against the recursive tree specification. Missing, because the code is wrong there: BLAKE2s of 2^32 - 64 bytes and more (high word of the last byte counter dropped), BLAKE3 of the empty message (undefined behaviour, proved), derivation contexts of more than one chunk (proved collision)."
  },
  {
   "property": "C87",
   "status": "partial",
   "theorems": [
    "C87_tiger_partial",
    "C87_whirlpool_partial",
    "C87_tiger_whole_blocks_unpadded_refuted",
    "C87_tiger_collisions_refuted",
    "C87_tiger_48_refuted",
    "C87_whirlpool_whole_blocks_unpadded_refuted",
    "C87_whirlpool_collisions_refuted"
   ],
   "note": "Both digests equal their published algorithms (TigerSpec.v; WhirlSpec.v builds the S-box, the field and the diffusion from the paper and the code's 16 KiB of tables are proved equal to that) for every message that is empty or does not end at a block boundary, Tiger also not with 48 to 55 bytes in its last block. For the remaining messages the property is false of the code: whole blocks are hashed without padding, which gives collisions; Tiger reverses a message word for 48..55 bytes. Tiger's four boxes are taken from the code (TigerTables.v) by both the model and the specification."
  },
  {
   "property": "C88",
   "status": "partial",
   "theorems": [
    "C88_base32_decode_any_input_refuted",
    "C88_base64_decode_any_input_refuted",
    "C88_base64_decode_short_input_refuted",
    "C88_uudecode_any_input_refuted"
   ],
   "note": "False as stated; witnesses given."
  },
  {
   "property": "C89",
   "status": "partial",
   "theorems": [
    "C89_iv_reused_after_first_encryption_refuted"
   ],
   "note": "False as stated: the second and later encryptions of a task use the all-zero IV."
  },
  {
   "property": "C90",
   "status": "partial",
   "theorems": [
    "C90_decrypt_out_size_beyond_buffer_refuted",
    "C90_decrypt_ragged_input_overflow_refuted"
   ],
   "note": "False as stated; refuted for every cipher and key."
  },
  {
   "property": "C91",
   "status": "partial",
   "theorems": [
    "C91_key_bytes_count_partial",
    "C91_whole_words",
    "C91_lost_key_bytes_refuted"
   ],
   "note": "False as stated: keys of 4m+3 bytes lose two bytes. Proved for the loaded words when the last partial word is at most half full."
  },
  {
   "property": "C92",
   "status": "partial",
   "theorems": [
    "C92_weak_keys_rejected_partial",
    "C92_weak_keys_accepted_refuted",
    "C92_semi_weak_key_accepted_refuted",
    "C92_good_key_refused_refuted"
   ],
   "note": "False as stated; witnesses given."
  },
  {
   "property": "C93",
   "status": "partial",
   "theorems": [
    "C93_key_expansion_overflow_refuted",
    "C93_rounds_overflow_refuted"
   ],
   "note": "False as stated; the positive part is in the block theorems of C16-C35."
  },
  {
   "property": "C94",
   "status": "proved",
   "theorems": [
    "C94_arc4_is_rc4",
    "C94_rabbit_is_rfc4503"
   ],
   "note": "RABBIT in the byte order of the eSTREAM submission, and under wrap-around of the signed product (C95)."
  },
  {
   "property": "C95",
   "status": "partial",
   "theorems": [
    "C95_nonce_pointer_valid_refuted",
    "C95_short_ciphertext_refuted",
    "C95_seal_version_refuted",
    "C95_seal_long_key_refuted",
    "C95_rabbit_key_size_refuted",
    "C95_rabbit_overflow_refuted"
   ],
   "note": "False as stated; witnesses for each part."
  },
  {
   "property": "C96",
   "status": "partial",
   "theorems": [
    "barrett_reduction",
    "montgomery_reduction_partial",
    "montgomery_reduction_refuted"
   ],
   "note": "Barrett: congruent for every modulus, exact below twice the modulus and for one-digit moduli. Montgomery: odd one-digit moduli; larger results overflow the result object (refuted)."
  },
  {
   "property": "C97",
   "status": "partial",
   "theorems": [
    "dh_groups_announced",
    "dh_group_range",
    "dh_group_six_refuted"
   ],
   "note": "All six groups; the number 6 is accepted and reads behind the table (refuted)."
  },
  {
   "property": "C98",
   "status": "partial",
   "theorems": [
    "ecdsa_signature_verifies_partial",
    "ecdsa_verify_exact_partial",
    "ecdsa_key_partial"
   ],
   "note": "Domains with p and q below 2^64 and an associative sum; s not 0, number of the hash not 0."
  },
  {
   "property": "C99",
   "status": "partial",
   "theorems": [
    "ecdh_agreement_partial"
   ],
   "note": "Domains with p and q below 2^64 and an associative sum."
  }
 ]
}