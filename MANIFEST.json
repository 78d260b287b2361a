{
 "claims": [
  {
   "property": "C01",
   "status": "proved",
   "theorems": [
    "C01_addv_exact",
    "C01_subv_exact",
    "C01_adds_exact"
   ],
   "note": ""
  },
  {
   "property": "C02",
   "status": "proved",
   "theorems": [
    "C02_cmps_order",
    "C02_cmpv_shifted_order"
   ],
   "note": ""
  },
  {
   "property": "C03",
   "status": "proved",
   "theorems": [
    "C03_remv_inplace_remainder",
    "C03_remv_inplace_null"
   ],
   "note": "remainder exact for every non-zero divisor; NULL iff rem has fewer words than b."
  },
  {
   "property": "C04",
   "status": "partial",
   "theorems": [
    "C04_divv_refuted",
    "C04_divv_partial",
    "C04_divv_null"
   ],
   "note": "False as stated: vlong_divv drops the bit shifted out of rem when 2*b > 2^(32*rem->c) (C04_divv_refuted). Proved for all other divisors (C04_divv_partial), plus the exact NULL condition."
  },
  {
   "property": "C05",
   "status": "proved",
   "theorems": [
    "C05_imod_inplace_residue"
   ],
   "note": "two's-complement residue, any width with rem->c >= max(1, b->c)."
  },
  {
   "property": "C06",
   "status": "partial",
   "theorems": [
    "C06_muls_exact",
    "C06_imuls_partial",
    "C06_imuls_refuted"
   ],
   "note": "vlong_muls fully proved. vlong_imuls proved for |b| < 2^31; false for larger multipliers (C06_imuls_refuted)."
  },
  {
   "property": "C07",
   "status": "proved",
   "theorems": [
    "C07_mulv_masked_mod",
    "C07_modexpv_mod",
    "C07_modexpv_callback",
    "C07_mulv_nomod"
   ],
   "note": "mulv_masked and modexpv, both with the library's own vlong_remv_inplace callback and with any residue-preserving callback."
  },
  {
   "property": "C08",
   "status": "proved",
   "theorems": [
    "C08_OS2IP_exact",
    "C08_DecLSB_exact",
    "C08_I2OSP_exact",
    "C08_EncLSB_exact",
    "C08_octets_roundtrip",
    "C08_words_roundtrip",
    "C08_topbit_bitlength"
   ],
   "note": "Exact value, length and round trips for every octet length and word count; bit length too."
  },
  {
   "property": "C09",
   "status": "proved",
   "theorems": [
    "C09_length_roundtrip",
    "C09_push_length_roundtrip",
    "C09_put_len_limit"
   ],
   "note": "Round trip for every length below 2^56 (both writers), up to 2^64 for the pushing writer; ber_put_len provably shifts by the full width from 2^56 on."
  },
  {
   "property": "C10",
   "status": "partial",
   "theorems": [
    "C10_tag_roundtrip_partial",
    "C10_writers_agree",
    "C10_tag_roundtrip_refuted",
    "C10_tag_roundtrip_large_refuted"
   ],
   "note": "Partial: round trip proved for every class and number below 2^21 except 31; the 28-bit claim is refuted on the code (31 and numbers >= 2^21)."
  },
  {
   "property": "C11",
   "status": "partial",
   "theorems": [
    "C11_reads_in_bounds_refuted",
    "C11_get_hdr_oob_iff_partial",
    "C11_get_tag_len_oob_iff_partial",
    "C11_five_octets_safe",
    "C11_announced_contents_fit"
   ],
   "note": "Partial: the code reads past a buffer that ends right after a tag (refuted); proved exactly when that happens, that five octets are enough, and that announced contents fit."
  },
  {
   "property": "C12",
   "status": "proved",
   "theorems": [
    "C12_encode_is_der",
    "C12_der_unique",
    "C12_decode_value",
    "C12_roundtrip",
    "C12_put_integer"
   ],
   "note": "Encoder output satisfies X.690 8.3 (minimal, non-negative), which determines it uniquely; decoder value, put_integer success condition."
  },
  {
   "property": "C13",
   "status": "proved",
   "theorems": [
    "C13_splice_insert"
   ],
   "note": "All lengths/offsets under the documented assumption offset >= len1."
  },
  {
   "property": "C14",
   "status": "proved",
   "theorems": [
    "C14_round_constants",
    "C14_sha1",
    "C14_sha224",
    "C14_sha256",
    "C14_sha384",
    "C14_sha512",
    "C14_sha512t224",
    "C14_sha512t256",
    "C14_sm3"
   ],
   "note": "Model of Init/Update/Final and of the portable compression functions equals FIPS 180-4 / GB/T 32905 (padding, schedule, rounds, constants) for every chunking; messages below 2^64 bits. Accelerated variants not modelled."
  },
  {
   "property": "C15",
   "status": "proved",
   "theorems": [
    "C15_final_repeatable",
    "C15_final_prefixes"
   ],
   "note": "For every algorithm, every context and every sequence of Final calls."
  },
  {
   "property": "C16",
   "status": "proved",
   "theorems": [
    "C16_any_sponge",
    "C16_shake",
    "C16_shake_fips202",
    "C16_gimli_xof",
    "C16_sha3",
    "C16_keccak_p"
   ],
   "note": "Keccak-p[1600] model proved equal to FIPS 202 for every round count; sponge refinement generic in the permutation; Gimli XOF relative to the Gimli model."
  },
  {
   "property": "C17",
   "status": "proved",
   "theorems": [
    "C17_hmac",
    "C17_key_length",
    "C17_instances",
    "C17_rekey_after_final"
   ],
   "note": "Generic over every hash satisfying the interface contract, instantiated for SHA-1/2, SM3, SHA-3; keys longer than a block refused exactly; HMAC_SetKey on a finalised context shown not to re-arm it."
  },
  {
   "property": "C18",
   "status": "partial",
   "theorems": [
    "C18_aes_final_again_refuted",
    "C18_cmac_partial",
    "C18_second_final",
    "C18_final_again_refuted"
   ],
   "note": "Tag proved for any 128-bit block cipher and any cutting; repeatable Final refuted (flag 0400 lost in uint8_t) with the exact second answer. C18_aes_final_again_refuted repeats the refutation with the AES-128 model."
  },
  {
   "property": "C19",
   "status": "partial",
   "theorems": [
    "C19_kmac_partial",
    "C19_kmacxof_partial",
    "C19_cshake_partial",
    "C19_aligned_key_refuted",
    "C19_final_again_refuted"
   ],
   "note": "First tag / XOF output proved for all inputs whose encoded prefixes are not an exact multiple of the rate; refuted: extra zero block absorbed for aligned prefixes (e.g. 163-octet key, KMAC128) and a second Final gives a different tag."
  },
  {
   "property": "C20",
   "status": "proved",
   "theorems": [
    "C20_encrypt",
    "C20_refused",
    "C20_decrypt_iff",
    "C20_roundtrip",
    "C20_aes"
   ],
   "note": "Any 128-bit block cipher, 96-bit IV (others refused), any AAD/payload below the length limits: Encrypt is SP 800-38D, Decrypt accepts exactly what Encrypt produces."
  },
  {
   "property": "C21",
   "status": "partial",
   "theorems": [
    "C21_encrypt_partial",
    "C21_decrypt_partial",
    "C21_never_returns_refuted",
    "C21_refused"
   ],
   "note": "SP 800-38C for payloads up to 31 octets, both directions; refuted beyond: a payload of 32 octets or more never returns (inner loop reuses i), for every cipher and data; excluded parameters refused."
  },
  {
   "property": "C22",
   "status": "partial",
   "theorems": [
    "C22_decrypt_iff",
    "C22_reject",
    "C22_rfc8439_partial",
    "C22_keystream_reuse_refuted"
   ],
   "note": "Over all histories of contexts under the same key: Decrypt accepts exactly the pairs Encrypt produces, wrong tags give NULL. RFC 8439 equality up to 2^38-64 octets outside the 35 exceptional accumulators of C23; refuted above: the tail of longer accepted messages is encrypted with key-stream block 0, the one that keys the authenticator."
  },
  {
   "property": "C23",
   "status": "partial",
   "theorems": [
    "C23_poly1305_partial",
    "C23_poly1305_refuted"
   ],
   "note": "Tag equals RFC 8439 whenever the final accumulator modulo p is at least 35; refuted in general (missing final reduction) with a witness; whole 16-octet blocks, as in the API."
  },
  {
   "property": "C24",
   "status": "proved",
   "theorems": [
    "C24_hmac_drbg",
    "C24_instances"
   ],
   "note": "Any history Seed, (Reseed|Generate)* equals SP 800-90A HMAC_DRBG, over every library hash; requests/lengths below 2^61 octets."
  },
  {
   "property": "C25",
   "status": "partial",
   "theorems": [
    "C25_first_output_partial",
    "C25_predictable_refuted",
    "C25_sp800_90a_refuted"
   ],
   "note": "The first Generate after instantiation equals SP 800-90A CTR_DRBG (no derivation function, 128/192/256-bit AES); refuted afterwards: the state is not updated after Generate, so later outputs differ from SP 800-90A and the state is derivable from the output."
  },
  {
   "property": "C26",
   "status": "proved",
   "theorems": [
    "C26_blake2",
    "C26_refused",
    "C26_chunking"
   ],
   "note": "Equality with RFC 7693 for every key, output length, message below 2^64-128 octets, cutting and sequence of Final calls; excluded parameters refused."
  },
  {
   "property": "C27",
   "status": "proved",
   "theorems": [
    "C27_blake3",
    "C27_blake3_keyed"
   ],
   "note": "Hash and keyed hash equal the BLAKE3 output stream, for every message below 2^64 octets, every cutting into Updates, every order in which the worker threads run a batch's jobs, every sequence of Final and Read calls (with and without rewind); keys of other lengths refused. derive_key mode does not exist in the code."
  },
  {
   "property": "C28",
   "status": "partial",
   "theorems": [
    "C28_kt128_partial",
    "C28_kt256_partial",
    "C28_m14_partial",
    "C28_kt_long_refuted"
   ],
   "note": "KT128, KT256 and MarsupilamiFourteen equal the RFC 9861 / K12-team output stream for every cutting of message and customisation string, every order of the crew's jobs, and every sequence of Final/Read calls, no assert failing and no array overrun, while |C| < 2^24 and S has at most 2^24 chunks. C28_kt_long_refuted: beyond these bounds the length-encoding loop of K12_Final2 shifts an int by 32 (undefined; on x86 the digest is wrong), for every input."
  },
  {
   "property": "C29",
   "status": "partial",
   "theorems": [
    "C29_at_most_once",
    "C29_wait",
    "C29_no_deadlock",
    "C29_terminates",
    "C29_destroy_refuted",
    "C29_create_failure_refuted"
   ],
   "note": "Transition system over all call histories, schedules and spurious wake-ups, any crew size from 2: at most once, Wait's callback after all jobs exactly once, no deadlock, no livelock. Refuted outside: Destroy while a job is in progress may never return (exit request overwritten), and a job is silently lost when thread creation fails. Counters unbounded, jobs do not call the crew."
  },
  {
   "property": "C30",
   "status": "partial",
   "theorems": [
    "C30_moduli",
    "C30_reductions_partial",
    "C30_canonical_refuted",
    "C30_SM2_wide_refuted"
   ],
   "note": "All five special-form reductions: modulus values, result congruent and at most p for every input at least as wide as p (SM2: below 2^288). The canonical form is refuted (p stays p; SM2 with 10 all-ones words leaves a value above 2^287)."
  },
  {
   "property": "C31",
   "status": "proved",
   "theorems": [
    "C31_signed_residue"
   ],
   "note": "For the five curve fields and every two's complement value within 2^32*p."
  },
  {
   "property": "C32",
   "status": "proved",
   "theorems": [
    "C32_inverse",
    "C32_low_words",
    "C32_square_root",
    "C32_square_root_refused"
   ],
   "note": "Inverse and square root for every prime modulus whose low word is at least 2 (all five qualify), for curve and generic reductions; square root refused exactly when p mod 4 <> 3."
  },
  {
   "property": "C33",
   "status": "partial",
   "theorems": [
    "C33_addition",
    "C33_doubling_partial",
    "C33_doubling_infinity_refuted",
    "C33_law_functional",
    "C33_law_group",
    "C33_base_points"
   ],
   "note": "ecp_point_add_rcb15 delivers the chord-and-tangent sum for all points of curves without 2-torsion (complete RCB15 formulas, proved from the curve equation); the chord-and-tangent law itself is proved to be a commutative group law (associativity included, C33_law_group); doubling is proved for affine points and refuted for the point at infinity (ecp_point_dbl_fast maps it to (0,0,0)). p prime is a hypothesis."
  },
  {
   "property": "C34",
   "status": "partial",
   "theorems": [
    "C34_weierstrass",
    "C34_base_infinity_refuted",
    "C34_edwards"
   ],
   "note": "Weierstrass: accum + k*base for every scalar and affine base (associativity of the law is proved, not assumed); base at infinity refuted. Edwards: for every scalar, base and accumulator, associativity proved (C35_group)."
  },
  {
   "property": "C35",
   "status": "proved",
   "theorems": [
    "C35_addition",
    "C35_doubling",
    "C35_neutral",
    "C35_group",
    "C35_complete",
    "C35_base_points"
   ],
   "note": "Addition, doubling, neutral element, T = XY/Z, base points; the law proved to be a commutative group law (closure, completeness, associativity by polynomial certificates). For Ed25519/Ed448 every condition, the primality of p included (Pocklington certificates, CurvePrimes.v), is proved. ecEd_point_dbl with out == p1 is outside the model (the header says restrict)."
  },
  {
   "property": "C36",
   "status": "partial",
   "theorems": [
    "C36_decode_sound",
    "C36_decode_complete_partial",
    "C36_encode",
    "C36_round_trip_partial",
    "C36_x_not_reduced_refuted",
    "C36_kem_compressed_refuted"
   ],
   "note": "Over any short Weierstrass domain (domain_ok; complete instance demo_ok). Decoding yields the SEC 1 point, on the curve, of order dividing n; encoding writes SEC 1. Completeness/round trip partial: the order test needs 2^t Q to avoid four coordinate coincidences. Refuted: x = p is accepted; the KEM's in-place decoding of compressed ciphertexts fails."
  },
  {
   "property": "C37",
   "status": "partial",
   "theorems": [
    "C37_verify_sound",
    "C37_verify_complete_partial",
    "C37_sign_verify_partial",
    "C37_large_x_refuted",
    "C37_verify_overwrites_key_refuted",
    "C37_keypair",
    "C37_private_key_range"
   ],
   "note": "Accepted implies valid by SEC 1 (full). Completeness and sign-then-verify for r produced in [1,n-1]; refuted in general: r is not reduced modulo n. Verification overwrites the private key register. Key generation/decoding ranges proved."
  },
  {
   "property": "C38",
   "status": "partial",
   "theorems": [
    "C38_verify_partial",
    "C38_verify_range",
    "C38_sign_verify_partial",
    "C38_signing_diverges_refuted",
    "C38_verify_overwrites_key_refuted"
   ],
   "note": "Verification equals GM/T 0003.2 except for verification points at infinity or with x-coordinate 0; sign-then-verify likewise. Refuted: signing never ends for d = n-1; verification overwrites the private key."
  },
  {
   "property": "C39",
   "status": "partial",
   "theorems": [
    "C39_parameters",
    "C39_key",
    "C39_sign",
    "C39_sign_prehashed",
    "C39_decode",
    "C39_decode_length",
    "C39_verify_sound",
    "C39_verify_complete",
    "C39_S_range",
    "C39_order_25519",
    "C39_sign_verify",
    "C39_ed25519",
    "C39_decode_strict_refuted"
   ],
   "note": "Ed25519 and Ed448 against EddsaSpec (numbers, octets and the affine group of EdSpec): key, signature octets (F = 0 with context, F = 1 prehashed), decoding for every octet string with y below p, soundness and completeness of Verify, rejection of S >= L and of wrong lengths. For Ed25519 the order and primality of L are proved, so sign-then-verify only excludes the r = 0 and S = 0 of probability 2^-252 (the neutral element, whose registers have two representations); for Ed448 the order of the base point is a hypothesis (rfc_order). Refuted: encodings with y >= p are accepted. The hash object is a function of the concatenated updates with octet output of the requested length; IncVerify's reset of the status is not modelled."
  },
  {
   "property": "C40",
   "status": "partial",
   "theorems": [
    "C40_ecdsa_cached_verdict",
    "C40_sm2_cached_verdict",
    "C40_ecdsa_verdict_refuted",
    "C40_sm2_verdict_refuted",
    "C40_eddsa_sticky",
    "C40_eddsa_verdict_refuted"
   ],
   "note": "EdDSA, ECDSA and SM2SIG: an accepting context answers every later message with success (sticky), with concrete contexts where the second message has no valid signature."
  },
  {
   "property": "C41",
   "status": "partial",
   "theorems": [
    "C41_pss_refuted",
    "C41_pss_check_partial",
    "C41_pss_digest_partial",
    "C41_pss_encode",
    "C41_pss_encoding_in_range"
   ],
   "note": "False on the code: RSASSA_PSS_Verify and IncVerify_Final accept every signature for every message (the inner check returns as soon as status is non-zero and its callers set it to 2). Proved besides: the check behind that guard decides RFC 8017 validity exactly (modulus_bits not 1 mod 8), the signer's encoding is EMSA-PSS, and it is below the modulus."
  },
  {
   "property": "C42",
   "status": "partial",
   "theorems": [
    "C42_v15_refuted",
    "C42_v15_check_partial",
    "C42_unknown_hash_rejected",
    "C42_prefixes"
   ],
   "note": "False on the code for the same reason as C41. Proved besides: the comparison behind the guard accepts exactly the RFC 8017 encoding; unknown hashes are refused; the DigestInfo table rows are the right DER."
  },
  {
   "property": "C43",
   "status": "partial",
   "theorems": [
    "C43_decrypt",
    "C43_encrypt",
    "C43_length_check_refuted",
    "C43_label_then_dec_refuted"
   ],
   "note": "Decryption answers yes exactly for OAEP encodings and delivers the message; encryption produces one; label test exact. Refuted: the length check (none after SetLabel, wraps for short keys), and Dec after a successful label test (re-decrypts the block). The call order Dec, then TestLabel, works."
  },
  {
   "property": "C44",
   "status": "partial",
   "theorems": [
    "C44_decrypt",
    "C44_encrypt_partial",
    "C44_zero_draw_refuted"
   ],
   "note": "Decryption answers yes exactly for well-formed blocks. Encryption proved when the rng draws no zero octet; refuted otherwise: a zero draw makes the loop read stale octets, or leave the buffer."
  },
  {
   "property": "C45",
   "status": "proved",
   "theorems": [
    "C45_crt_residues",
    "C45_fastdec_inverts_enc"
   ],
   "note": "Word-level rsa_fastdec (Garner steps, inlined divisions, modexp) and rsa_enc: CRT residues of the result for any coprime factors with right coefficients, and Dec(Enc(M)) = M for distinct primes, any number of them."
  },
  {
   "property": "C46",
   "status": "partial",
   "theorems": [
    "C46_public_encode",
    "C46_private_encode_partial",
    "C46_private_length",
    "C46_four_primes_refuted",
    "C46_public_decode",
    "C46_private_decode",
    "C46_public_roundtrip",
    "C46_private_roundtrip_partial",
    "C46_public_memory",
    "C46_private_memory",
    "C46_private_reject",
    "C46_parser_safe_refuted",
    "C46_version_abort_refuted",
    "C46_version_value",
    "C46_outside_sequence_refuted"
   ],
   "note": "Writers equal the RFC 8017 DER for public keys and for private keys of two or three primes (any buffer); the announced length is right for any number of primes. Parsers: values, bit length, working-register sizes on every DER key (any number of primes), both passes agree and the context layout is packed within the announced size on every input. Refuted: a key of four or more primes makes the private writer copy headers from outside of tlbuf (C46_four_primes_refuted); truncated input is over-read, a version other than 0/1 aborts, and INTEGERs outside of the SEQUENCE are accepted."
  },
  {
   "property": "C47",
   "status": "proved",
   "theorems": [
    "C47_aes",
    "C47_aes_is_fips197",
    "C47_sm4",
    "C47_seed",
    "C47_aria",
    "C47_camellia"
   ],
   "note": "All five ciphers, all key sizes, both directions, every key and block; AES also equals FIPS 197. The accelerated AES/SM4 back ends are not modelled."
  },
  {
   "property": "C48",
   "status": "partial",
   "theorems": [
    "C48_decides_strong_test",
    "C48_prime_accepted_partial",
    "C48_prime_rejected_refuted"
   ],
   "note": "MillerRabin decides exactly the strong probable-prime test for the bases drawn; a prime is rejected only if a base is a multiple of it; that exception is real (3 is rejected for draw 0xAA55), so the full claim is refuted."
  },
  {
   "property": "C49",
   "status": "proved",
   "theorems": [
    "C49_mult",
    "C49_remainder"
   ],
   "note": "Carry-less multiplication and reduction proved equal to GF(2^128) arithmetic for all operands."
  },
  {
   "property": "C50",
   "status": "proved",
   "theorems": [
    "C50_egcd",
    "C50_inverse"
   ],
   "note": "EGCD terminates, returns NULL exactly for non-coprime arguments, else a signed inverse bounded by p; with the reduction used by the callers it is the inverse in [0,p)."
  },
  {
   "property": "C51",
   "status": "proved",
   "theorems": [
    "C51_ladder",
    "C51_commutes",
    "C51_base_points",
    "C51_private_key",
    "C51_public_key",
    "C51_keygen",
    "C51_encapsulate",
    "C51_decapsulate",
    "C51_shared_secret"
   ],
   "note": "For Curve25519 and Curve448 without hypotheses: clamping, decoding (non-canonical u and the ignored top bit included), the ladder equals the RFC 7748 function for every scalar and every u up to 8p, the function commutes on the curve (via the birational Edwards curve), key generation/encapsulation/decapsulation octets, and both sides agree (always modulo p; as octets whenever the residue is not 0, where the code may deliver the octets of p or of 0). Length mismatches in Decode_* and the random source are not modelled."
  },
  {
   "property": "C52",
   "status": "proved",
   "theorems": [
    "C52_keygen_consistent",
    "C52_candidate",
    "C52_full_length"
   ],
   "note": "keygen_derive models the derivation part of rsa_keygen from given primes; candidate generation proved odd/full length; that drawn candidates are prime rests on Miller-Rabin (C48)."
  },
  {
   "property": "C53",
   "status": "partial",
   "theorems": [
    "C53_agreement_partial"
   ],
   "note": "Both sides obtain be_bytes(x mod p) of d k G, k a nonce from the random octets; missing: shared point with x-coordinate 0."
  },
  {
   "property": "C54",
   "status": "partial",
   "theorems": [
    "C54_encode",
    "C54_decode",
    "C54_ecdsa_end_to_end",
    "C54_sm2_end_to_end",
    "C54_ecdsa_sound",
    "C54_unique_encoding_refuted",
    "C54_failed_decode_refuted",
    "C54_reads_in_bounds_refuted"
   ],
   "note": "Encoder = DER of Ecdsa-Sig-Value for any registers and buffer; decoder inverts it; ECDSA and SM2 sign-encode-decode-verify end to end (with the premises of C37/C38), and soundness of acceptance for arbitrary octets. Refuted: the encoding is not unique (INTEGERs are cut to the registers, trailing octets ignored), a failed decode still makes the context ready to verify, and truncated input is over-read."
  },
  {
   "property": "C55",
   "status": "proved",
   "theorems": [
    "C55_ecc_encode",
    "C55_ecc_round_trip",
    "C55_ecc_decode",
    "C55_ecc_generated",
    "C55_eddsa",
    "C55_xecdh",
    "C55_xecdh_lengths"
   ],
   "note": "ECC: octets = be(d, plen); exactly [1, n-1] accepted; both round trips, also from the key generator (domain_ok). EdDSA: any octets of the right length; XECDH: stored form is the clamped scalar, loading it gives the same k and K."
  },
  {
   "property": "C56",
   "status": "partial",
   "theorems": [
    "C56_z",
    "C56_key_partial",
    "C56_sign_verify_partial",
    "C56_long_id_refuted",
    "C56_id_collision_refuted",
    "C56_entl_wraps_refuted",
    "C56_unreduced_key_refuted"
   ],
   "note": "Z = H(ENTL || ID || a || b || xG || yG || xA || yA) for IDs below 8192 octets and any register contents; for the key derived from d (x-coordinate 0 excluded); sign/verify with the ID. z_domain holds of the SM2 curve. Refuted: IDs of 65536 octets or more are cut to a prefix (collisions), ENTL wraps from 8192 octets on, unreduced public keys change Z."
  },
  {
   "property": "C57",
   "status": "partial",
   "theorems": [
    "C57_pss_sign",
    "C57_pss_accepted",
    "C57_v15_sign",
    "C57_v15_unknown_hash",
    "C57_v15_accepted",
    "C57_refused_refuted",
    "C57_modulus_bits_refuted"
   ],
   "note": "PSS and v1.5 from message to octets and back through the verifier's check, any number of primes, moduli whose length is not 1 modulo 8. Refuted: with 8j+1 bits j octets of the result and a zero octet are handed out, never the RSASP1 result; Encode_Signature ignores a refusal and hands out the stale buffer. (That the API of the verifier reaches the check is C41/C42, refuted.)"
  },
  {
   "property": "C58",
   "status": "proved",
   "theorems": [
    "C58_ni_equals_portable",
    "C58_ni_is_fips197"
   ],
   "note": "x86, Arm and Power loops on the manuals' instruction semantics (AesSpec2.v, in terms of FIPS 197's round functions) equal Rijndael_Cipher/InvCipher for all Nr and schedules, and FIPS 197 with the shared key expansion."
  },
  {
   "property": "C59",
   "status": "proved",
   "theorems": [
    "C59_ghash_product",
    "C59_ghash_equals_portable",
    "C59_mirror"
   ],
   "note": "PCLMULQDQ/PMULL/VPMSUMD code, including the octet-mirroring masks, lane shifts and the 0x87 folding, equals gf_mul of GcmSpec.v and the portable code, with X or NULL."
  },
  {
   "property": "C60",
   "status": "proved",
   "theorems": [
    "C60_sha1",
    "C60_sha256",
    "C60_sha512",
    "C60_sessions"
   ],
   "note": "SHA1RNDS4/NEXTE/MSG1/MSG2, SHA256RNDS2/MSG1/MSG2 and Arm's SHA1C/P/M/H/SU0/SU1, SHA256H/H2/SU0/SU1, SHA512H/H2/SU0/SU1 given by their manuals' pseudo-code (ShaIsa.v); the loops, with their in-place circular schedule, equal FIPS 180-4 for every state and block, and sessions with either variant deliver the portable digest."
  },
  {
   "property": "C61",
   "status": "proved",
   "theorems": [
    "C61_sm4_is_gbt32907",
    "C61_sm4_arm",
    "C61_keccak_arm",
    "C61_keccak_sessions"
   ],
   "note": "Sm4Spec.v gives GB/T 32907 independently (S-box by inversion in GF(2^8) and affine maps, CK by formula); NeonNi.v models sm4-arm.c and keccak-arm.c.h with TRN/REV/SM4E/SM4EKEY/EOR3/RAX1/BCAX from the Arm manual. Proved for every key, round-key array, block, state and round count. That in == out may alias is covered since each routine loads all of its input first."
  }
 ]
}