{
 "C04": "False as stated: vlong_divv drops the bit shifted out of rem when 2*b > 2^(32*rem->c) (C04_divv_refuted). Proved for all other divisors (C04_divv_partial), plus the exact NULL condition.",
 "C06": "vlong_muls fully proved. vlong_imuls proved for |b| < 2^31; false for larger multipliers (C06_imuls_refuted).",
 "C03": "remainder exact for every non-zero divisor; NULL iff rem has fewer words than b.",
 "C05": "two's-complement residue, any width with rem->c >= max(1, b->c).",
 "C07": "mulv_masked and modexpv, both with the library's own vlong_remv_inplace callback and with any residue-preserving callback.",
 "C08": "Exact value, length and round trips for every octet length and word count; bit length too.",
 "C09": "Round trip for every length below 2^56 (both writers), up to 2^64 for the pushing writer; ber_put_len provably shifts by the full width from 2^56 on.",
 "C10": "Partial: round trip proved for every class and number below 2^21 except 31; the 28-bit claim is refuted on the code (31 and numbers >= 2^21).",
 "C11": "Partial: the code reads past a buffer that ends right after a tag (refuted); proved exactly when that happens, that five octets are enough, and that announced contents fit.",
 "C12": "Encoder output satisfies X.690 8.3 (minimal, non-negative), which determines it uniquely; decoder value, put_integer success condition.",
 "C13": "All lengths/offsets under the documented assumption offset >= len1.",
 "C14": "Model of Init/Update/Final and of the portable compression functions equals FIPS 180-4 / GB/T 32905 (padding, schedule, rounds, constants) for every chunking; messages below 2^64 bits. Accelerated variants not modelled.",
 "C15": "For every algorithm, every context and every sequence of Final calls.",
 "C16": "Keccak-p[1600] model proved equal to FIPS 202 for every round count; sponge refinement generic in the permutation; Gimli XOF relative to the Gimli model.",
 "C19": "First tag / XOF output proved for all inputs whose encoded prefixes are not an exact multiple of the rate; refuted: extra zero block absorbed for aligned prefixes (e.g. 163-octet key, KMAC128) and a second Final gives a different tag.",
 "C17": "Generic over every hash satisfying the interface contract, instantiated for SHA-1/2, SM3, SHA-3; keys longer than a block refused exactly; HMAC_SetKey on a finalised context shown not to re-arm it.",
 "C18": "Tag proved for any 128-bit block cipher and any cutting; repeatable Final refuted (flag 0400 lost in uint8_t) with the exact second answer. C18_aes_final_again_refuted repeats the refutation with the AES-128 model.",
 "C24": "Any history Seed, (Reseed|Generate)* equals SP 800-90A HMAC_DRBG, over every library hash; requests/lengths below 2^61 octets.",
 "C47": "All five ciphers, all key sizes, both directions, every key and block; AES also equals FIPS 197. The accelerated AES/SM4 back ends are not modelled.",
 "C41": "False on the code: RSASSA_PSS_Verify and IncVerify_Final accept every signature for every message (the inner check returns as soon as status is non-zero and its callers set it to 2). Proved besides: the check behind that guard decides RFC 8017 validity exactly (modulus_bits not 1 mod 8), the signer's encoding is EMSA-PSS, and it is below the modulus.",
 "C42": "False on the code for the same reason as C41. Proved besides: the comparison behind the guard accepts exactly the RFC 8017 encoding; unknown hashes are refused; the DigestInfo table rows are the right DER.",
 "C20": "Any 128-bit block cipher, 96-bit IV (others refused), any AAD/payload below the length limits: Encrypt is SP 800-38D, Decrypt accepts exactly what Encrypt produces.",
 "C21": "SP 800-38C for payloads up to 31 octets, both directions; refuted beyond: a payload of 32 octets or more never returns (inner loop reuses i), for every cipher and data; excluded parameters refused.",
 "C22": "Over all histories of contexts under the same key: Decrypt accepts exactly the pairs Encrypt produces, wrong tags give NULL. RFC 8439 equality up to 2^38-64 octets outside the 35 exceptional accumulators of C23; refuted above: the tail of longer accepted messages is encrypted with key-stream block 0, the one that keys the authenticator.",
 "C23": "Tag equals RFC 8439 whenever the final accumulator modulo p is at least 35; refuted in general (missing final reduction) with a witness; whole 16-octet blocks, as in the API.",
 "C49": "Carry-less multiplication and reduction proved equal to GF(2^128) arithmetic for all operands.",
 "C25": "The first Generate after instantiation equals SP 800-90A CTR_DRBG (no derivation function, 128/192/256-bit AES); refuted afterwards: the state is not updated after Generate, so later outputs differ from SP 800-90A and the state is derivable from the output.",
 "C26": "Equality with RFC 7693 for every key, output length, message below 2^64-128 octets, cutting and sequence of Final calls; excluded parameters refused.",
 "C29": "Transition system over all call histories, schedules and spurious wake-ups, any crew size from 2: at most once, Wait's callback after all jobs exactly once, no deadlock, no livelock. Refuted outside: Destroy while a job is in progress may never return (exit request overwritten), and a job is silently lost when thread creation fails. Counters unbounded, jobs do not call the crew.",
 "C45": "Word-level rsa_fastdec (Garner steps, inlined divisions, modexp) and rsa_enc: CRT residues of the result for any coprime factors with right coefficients, and Dec(Enc(M)) = M for distinct primes, any number of them.",
 "C48": "MillerRabin decides exactly the strong probable-prime test for the bases drawn; a prime is rejected only if a base is a multiple of it; that exception is real (3 is rejected for draw 0xAA55), so the full claim is refuted.",
 "C50": "EGCD terminates, returns NULL exactly for non-coprime arguments, else a signed inverse bounded by p; with the reduction used by the callers it is the inverse in [0,p).",
 "C52": "keygen_derive models the derivation part of rsa_keygen from given primes; candidate generation proved odd/full length; that drawn candidates are prime rests on Miller-Rabin (C48).",
 "C30": "All five special-form reductions: modulus values, result congruent and at most p for every input at least as wide as p (SM2: below 2^288). The canonical form is refuted (p stays p; SM2 with 10 all-ones words leaves a value above 2^287).",
 "C31": "For the five curve fields and every two's complement value within 2^32*p.",
 "C32": "Inverse and square root for every prime modulus whose low word is at least 2 (all five qualify), for curve and generic reductions; square root refused exactly when p mod 4 <> 3.",
 "C33": "ecp_point_add_rcb15 delivers the chord-and-tangent sum for all points of curves without 2-torsion (complete RCB15 formulas, proved from the curve equation); the chord-and-tangent law itself is proved to be a commutative group law (associativity included, C33_law_group); doubling is proved for affine points and refuted for the point at infinity (ecp_point_dbl_fast maps it to (0,0,0)). p prime is a hypothesis.",
 "C34": "Weierstrass: accum + k*base for every scalar and affine base (associativity of the law is proved, not assumed); base at infinity refuted. Edwards: for every scalar, base and accumulator, associativity proved (C35_group).",
 "C35": "Addition, doubling, neutral element, T = XY/Z, base points; the law proved to be a commutative group law (closure, completeness, associativity by polynomial certificates). For Ed25519/Ed448 every condition, the primality of p included (Pocklington certificates, CurvePrimes.v), is proved. ecEd_point_dbl with out == p1 is outside the model (the header says restrict).",
 "C51": "For Curve25519 and Curve448 without hypotheses: clamping, decoding (non-canonical u and the ignored top bit included), the ladder equals the RFC 7748 function for every scalar and every u up to 8p, the function commutes on the curve (via the birational Edwards curve), key generation/encapsulation/decapsulation octets, and both sides agree (always modulo p; as octets whenever the residue is not 0, where the code may deliver the octets of p or of 0). Length mismatches in Decode_* and the random source are not modelled.",
 "C39": "Ed25519 and Ed448 against EddsaSpec (numbers, octets and the affine group of EdSpec): key, signature octets (F = 0 with context, F = 1 prehashed), decoding for every octet string with y below p, soundness and completeness of Verify, rejection of S >= L and of wrong lengths. For Ed25519 the order and primality of L are proved, so sign-then-verify only excludes the r = 0 and S = 0 of probability 2^-252 (the neutral element, whose registers have two representations); for Ed448 the order of the base point is a hypothesis (rfc_order). Refuted: encodings with y >= p are accepted. The hash object is a function of the concatenated updates with octet output of the requested length; IncVerify's reset of the status is not modelled.",
 "C40": "EdDSA, ECDSA and SM2SIG: an accepting context answers every later message with success (sticky), with concrete contexts where the second message has no valid signature.",
 "C36": "Over any short Weierstrass domain (domain_ok; complete instance demo_ok). Decoding yields the SEC 1 point, on the curve, of order dividing n; encoding writes SEC 1. Completeness/round trip partial: the order test needs 2^t Q to avoid four coordinate coincidences. Refuted: x = p is accepted; the KEM's in-place decoding of compressed ciphertexts fails.",
 "C37": "Accepted implies valid by SEC 1 (full). Completeness and sign-then-verify for r produced in [1,n-1]; refuted in general: r is not reduced modulo n. Verification overwrites the private key register. Key generation/decoding ranges proved.",
 "C38": "Verification equals GM/T 0003.2 except for verification points at infinity or with x-coordinate 0; sign-then-verify likewise. Refuted: signing never ends for d = n-1; verification overwrites the private key.",
 "C53": "Both sides obtain be_bytes(x mod p) of d k G, k a nonce from the random octets; missing: shared point with x-coordinate 0.",
 "C43": "Decryption answers yes exactly for OAEP encodings and delivers the message; encryption produces one; label test exact. Refuted: the length check (none after SetLabel, wraps for short keys), and Dec after a successful label test (re-decrypts the block). The call order Dec, then TestLabel, works.",
 "C44": "Decryption answers yes exactly for well-formed blocks. Encryption proved when the rng draws no zero octet; refuted otherwise: a zero draw makes the loop read stale octets, or leave the buffer.",
 "C27": "Hash and keyed hash equal the BLAKE3 output stream, for every message below 2^64 octets, every cutting into Updates, every order in which the worker threads run a batch's jobs, every sequence of Final and Read calls (with and without rewind); keys of other lengths refused. derive_key mode does not exist in the code.",
 "C28": "KT128, KT256 and MarsupilamiFourteen equal the RFC 9861 / K12-team output stream for every cutting of message and customisation string, every order of the crew's jobs, and every sequence of Final/Read calls, no assert failing and no array overrun, while |C| < 2^24 and S has at most 2^24 chunks. C28_kt_long_refuted: beyond these bounds the length-encoding loop of K12_Final2 shifts an int by 32 (undefined; on x86 the digest is wrong), for every input.",
 "C46": "Writers equal the RFC 8017 DER for public keys and for private keys of two or three primes (any buffer); the announced length is right for any number of primes. Parsers: values, bit length, working-register sizes on every DER key (any number of primes), both passes agree and the context layout is packed within the announced size on every input. Refuted: a key of four or more primes makes the private writer copy headers from outside of tlbuf (C46_four_primes_refuted); truncated input is over-read, a version other than 0/1 aborts, and INTEGERs outside of the SEQUENCE are accepted.",
 "C54": "Encoder = DER of Ecdsa-Sig-Value for any registers and buffer; decoder inverts it; ECDSA and SM2 sign-encode-decode-verify end to end (with the premises of C37/C38), and soundness of acceptance for arbitrary octets. Refuted: the encoding is not unique (INTEGERs are cut to the registers, trailing octets ignored), a failed decode still makes the context ready to verify, and truncated input is over-read.",
 "C55": "ECC: octets = be(d, plen); exactly [1, n-1] accepted; both round trips, also from the key generator (domain_ok). EdDSA: any octets of the right length; XECDH: stored form is the clamped scalar, loading it gives the same k and K.",
 "C56": "Z = H(ENTL || ID || a || b || xG || yG || xA || yA) for IDs below 8192 octets and any register contents; for the key derived from d (x-coordinate 0 excluded); sign/verify with the ID. z_domain holds of the SM2 curve. Refuted: IDs of 65536 octets or more are cut to a prefix (collisions), ENTL wraps from 8192 octets on, unreduced public keys change Z.",
 "C57": "PSS and v1.5 from message to octets and back through the verifier's check, any number of primes, moduli whose length is not 1 modulo 8. Refuted: with 8j+1 bits j octets of the result and a zero octet are handed out, never the RSASP1 result; Encode_Signature ignores a refusal and hands out the stale buffer. (That the API of the verifier reaches the check is C41/C42, refuted.)",
 "C58": "x86, Arm and Power loops on the manuals' instruction semantics (AesSpec2.v, in terms of FIPS 197's round functions) equal Rijndael_Cipher/InvCipher for all Nr and schedules, and FIPS 197 with the shared key expansion.",
 "C59": "PCLMULQDQ/PMULL/VPMSUMD code, including the octet-mirroring masks, lane shifts and the 0x87 folding, equals gf_mul of GcmSpec.v and the portable code, with X or NULL.",
 "C60": "SHA1RNDS4/NEXTE/MSG1/MSG2, SHA256RNDS2/MSG1/MSG2 and Arm's SHA1C/P/M/H/SU0/SU1, SHA256H/H2/SU0/SU1, SHA512H/H2/SU0/SU1 given by their manuals' pseudo-code (ShaIsa.v); the loops, with their in-place circular schedule, equal FIPS 180-4 for every state and block, and sessions with either variant deliver the portable digest.",
 "C61": "Sm4Spec.v gives GB/T 32907 independently (S-box by inversion in GF(2^8) and affine maps, CK by formula); NeonNi.v models sm4-arm.c and keccak-arm.c.h with TRN/REV/SM4E/SM4EKEY/EOR3/RAX1/BCAX from the Arm manual. Proved for every key, round-key array, block, state and round count. That in == out may alias is covered since each routine loads all of its input first."
}