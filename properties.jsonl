{"id": "C01", "title": "Multi-word addition and subtraction are exact", "statement": "vlong_addv, vlong_subv and vlong_adds store in out the exact sum/difference of their operands modulo 2^(32*out->c), whatever the three operand widths are, and change nothing but out's words.", "quantifier": "all operand widths and word contents (scalar operands in the documented range -UINT32_MAX..UINT32_MAX)", "why_tests_cant": "carries of arbitrary length between operands of arbitrary, different widths; tests only sample", "anchors": ["src/1-integers/vlong.c:vlong_addv", "src/1-integers/vlong.c:vlong_subv", "src/1-integers/vlong.c:vlong_adds"]}
{"id": "C02", "title": "Multi-word comparison is numeric order", "statement": "vlong_cmps and vlong_cmpv_shifted return 0, 1 or 2 exactly when the first operand is equal to, greater than or less than the second operand (the latter shifted left by the given number of bits).", "quantifier": "all word values, all widths, all shift amounts", "why_tests_cant": "branch-free bit tricks must be right for every pair of 32-bit words and for every width/shift combination", "anchors": ["src/1-integers/vlong.c:vlong_cmps", "src/1-integers/vlong.c:vlong_cmpv_shifted"]}
{"id": "C03", "title": "In-place remainder", "statement": "vlong_remv_inplace replaces a by a mod b for every non-zero b, and returns NULL exactly when a has fewer words than b.", "quantifier": "all widths and values with b non-zero", "why_tests_cant": "result must be right for every dividend/divisor, including widths never tested", "anchors": ["src/1-integers/vlong.c:vlong_remv_inplace"]}
{"id": "C04", "title": "Long division", "statement": "vlong_divv delivers quotient and remainder with a = q*b + r and 0 <= r < b for every non-zero divisor, or NULL when an output is too small.", "quantifier": "all widths and values with b non-zero", "why_tests_cant": "correctness is lost only on divisors with the top bit set and no spare word; random tests with slack never see it", "anchors": ["src/1-integers/vlong.c:vlong_divv"]}
{"id": "C05", "title": "Signed modular reduction", "statement": "vlong_imod_inplace maps a two's-complement number to its least non-negative residue modulo b.", "quantifier": "all widths and values, b positive and small enough to have a spare sign bit", "why_tests_cant": "needs every negative/positive/zero/multiple-of-b case", "anchors": ["src/1-integers/vlong.c:vlong_imod_inplace"]}
{"id": "C06", "title": "Scalar multiplication", "statement": "vlong_muls computes a*b (+out) modulo 2^(32*out->c) for every 32-bit b, and vlong_imuls does so for every signed b it accepts.", "quantifier": "all widths, values and multipliers", "why_tests_cant": "the carry handling is wrong only for particular multiplier ranges", "anchors": ["src/1-integers/vlong.c:vlong_muls", "src/1-integers/vlong.c:vlong_imuls"]}
{"id": "C07", "title": "Modular multiplication and exponentiation", "statement": "vlong_mulv_masked with a modular-reduction callback gives a*b mod m, and vlong_modexpv gives base^e mod m.", "quantifier": "all bases, exponents and moduli that leave the documented spare word", "why_tests_cant": "unbounded exponent length and operand widths", "anchors": ["src/1-integers/vlong.c:vlong_mulv_masked", "src/1-integers/vlong.c:vlong_modexpv"]}
{"id": "C08", "title": "Integer/octet-string conversion", "statement": "vlong_OS2IP / vlong_I2OSP are big-endian, vlong_DecLSB / vlong_EncLSB little-endian conversions, mutually inverse for every value that fits, zero-extending on the high side.", "quantifier": "all lengths, all octet strings, all word counts", "why_tests_cant": "codec round-trip over every length relation between octets and words", "anchors": ["src/1-integers/vlong-dat.c:vlong_OS2IP", "src/1-integers/vlong-dat.c:vlong_I2OSP", "src/1-integers/vlong-dat.c:vlong_EncLSB", "src/1-integers/vlong-dat.c:vlong_DecLSB"]}
{"id": "C09", "title": "DER length round-trip", "statement": "A length written by ber_put_len or ber_push_len is read back unchanged by ber_get_len, consuming exactly the octets written, and the two writers emit identical octets.", "quantifier": "all lengths below 2^56 and all trailing data", "why_tests_cant": "unbounded numeric domain", "anchors": ["src/2-asn1/der-codec.c:ber_put_len", "src/2-asn1/der-codec.c:ber_push_len", "src/2-asn1/der-codec.c:ber_get_len"]}
{"id": "C10", "title": "DER tag round-trip", "statement": "Every tag number up to the advertised 28 bits written by ber_put_tag / ber_push_tag is read back by ber_get_tag with the same class and number.", "quantifier": "all 28-bit tag numbers, all classes, both primitive/constructed flags", "why_tests_cant": "2^30 tag values; the failing ones (31 and those above 2^21) are not used by the test-suite", "anchors": ["src/2-asn1/der-codec.c:ber_put_tag", "src/2-asn1/der-codec.c:ber_push_tag", "src/2-asn1/der-codec.c:ber_get_tag"]}
{"id": "C11", "title": "DER parsing stays inside the buffer", "statement": "ber_get_tag, ber_get_len and ber_get_hdr never read an octet outside the given buffer, and on success the announced contents fit in what remains.", "quantifier": "all octet strings of all lengths", "why_tests_cant": "attacker-controlled input; memory-safety must hold for every truncation", "anchors": ["src/2-asn1/der-codec.c:ber_get_hdr", "src/2-asn1/der-codec.c:ber_get_tag", "src/2-asn1/der-codec.c:ber_get_len"]}
{"id": "C12", "title": "DER INTEGER codec", "statement": "ber_tlv_encode_integer emits the unique minimal non-negative DER contents octets of the number, and ber_tlv_decode_integer recovers the number; ber_tlv_put_integer is tag, length and those contents and fails iff the buffer is too small.", "quantifier": "all numbers of all word counts", "why_tests_cant": "minimality and sign-octet rule must hold at every byte boundary", "anchors": ["src/2-asn1/der-codec.c:ber_tlv_encode_integer", "src/2-asn1/der-codec.c:ber_tlv_decode_integer", "src/2-asn1/der-codec.c:ber_tlv_put_integer"]}
{"id": "C13", "title": "Buffer splice", "statement": "ber_util_splice_insert moves the block found at the given offset in front of the leading block without losing or duplicating any octet.", "quantifier": "all block lengths and offsets satisfying the documented assumption", "why_tests_cant": "the in-place rotation loop has data-dependent segment splits", "anchors": ["src/2-asn1/der-codec.c:ber_util_splice_insert"]}
{"id": "C14", "title": "Merkle-Damgard hashes: chunking invariance and padding", "statement": "For SHA-1/224/256/384/512/SM3 the digest depends only on the concatenation of the octets passed to Update, and equals the standard's pad-then-iterate definition.", "quantifier": "all messages and all ways of cutting them into Update calls", "why_tests_cant": "infinitely many chunkings, block-boundary cases", "anchors": ["src/2-hash/sha.c:SHA256_Update", "src/2-hash/sha.c:SHA256_Final", "src/2-hash/sm3.c:SM3_Update", "src/2-hash/sm3.c:SM3_Final"]}
{"id": "C15", "title": "Merkle-Damgard hashes: Final is repeatable", "statement": "Calling Final again (any output length) yields prefixes of / zero-extended copies of the same digest and never changes it.", "quantifier": "all states, all sequences of Final calls and lengths", "why_tests_cant": "histories of calls", "anchors": ["src/2-hash/sha.c:SHA1_Final", "src/2-hash/sha.c:SHA512_Final"]}
{"id": "C16", "title": "Sponge hashes and XOFs: chunking invariance", "statement": "SHA-3, SHAKE and the Gimli XOF: absorbing in any pieces and squeezing in any pieces produces the stream defined by the sponge construction on the concatenated input.", "quantifier": "all inputs, all cuttings of input and of output", "why_tests_cant": "infinitely many call histories", "anchors": ["src/1-symm/sponge.c:Sponge_Update", "src/1-symm/sponge.c:Sponge_Read", "src/2-hash/sha3.c", "src/2-xof/shake.c"]}
{"id": "C17", "title": "HMAC equals RFC 2104 and is reusable", "statement": "HMAC_Update in any pieces then HMAC_Final gives H((K^opad)||H((K^ipad)||m)); a second Final gives the same tag; keys longer than the block are refused.", "quantifier": "all keys, messages, cuttings", "why_tests_cant": "quantifies over call histories and any hash", "anchors": ["src/2-mac/hmac.c:HMAC_SetKey", "src/2-mac/hmac.c:HMAC_Update", "src/2-mac/hmac.c:HMAC_Final"]}
{"id": "C18", "title": "CMAC equals SP 800-38B and Final is repeatable", "statement": "CMAC over any cutting of the message gives the SP 800-38B tag, and calling CMAC_Final again returns the same tag.", "quantifier": "all messages, cuttings, block ciphers", "why_tests_cant": "call histories; the finalised flag is lost by an 8-bit truncation only visible on a second Final", "anchors": ["src/2-mac/cmac.c:CMAC_Update", "src/2-mac/cmac.c:CMAC_Final"]}
{"id": "C19", "title": "KMAC equals SP 800-185 and Final is repeatable", "statement": "KMAC over any cutting of the message gives the cSHAKE-based definition; a repeated Final returns the same tag.", "quantifier": "all keys, customisation strings, messages, output lengths", "why_tests_cant": "call histories", "anchors": ["src/2-mac/kmac.c"]}
{"id": "C20", "title": "GCM decryption inverts encryption and authenticates", "statement": "GCM_Decrypt accepts exactly the tags GCM_Encrypt produces, returns the plaintext then, and otherwise returns NULL without writing any plaintext.", "quantifier": "all keys (any 128-bit block cipher), nonces, AAD, messages, tag lengths", "why_tests_cant": "unbounded lengths, arbitrary forged inputs", "anchors": ["src/2-encryption/gcm.c:GCM_Encrypt", "src/2-encryption/gcm.c:GCM_Decrypt"]}
{"id": "C21", "title": "CCM decryption inverts encryption and terminates", "statement": "CCM_Encrypt and CCM_Decrypt terminate for every accepted length and are mutually inverse.", "quantifier": "all admissible lengths", "why_tests_cant": "non-termination starts at 32 octets of payload, beyond the test vectors", "anchors": ["src/2-encryption/ccm.c:CCM_Encrypt", "src/2-encryption/ccm.c:CCM_Decrypt"]}
{"id": "C22", "title": "ChaCha20-Poly1305 AEAD", "statement": "Decrypt accepts exactly the tag Encrypt produces and inverts it; the key stream of a message never reuses the block that keyed the authenticator.", "quantifier": "all keys, nonces, AAD, messages up to the accepted length", "why_tests_cant": "the counter wraps only for messages near 2^38 octets", "anchors": ["src/2-encryption/chacha20-poly1305.c:ChaCha_AEAD_Encrypt", "src/2-encryption/chacha20-poly1305.c:ChaCha_AEAD_Decrypt"]}
{"id": "C23", "title": "Poly1305 equals RFC 8439", "statement": "The tag is (sum of clamped-key polynomial mod 2^130-5) + s mod 2^128 for every message.", "quantifier": "all keys and messages", "why_tests_cant": "final reduction matters only for a sliver of accumulator values", "anchors": ["src/1-symm/poly1305.c"]}
{"id": "C24", "title": "HMAC_DRBG equals SP 800-90A", "statement": "Instantiate/reseed/generate follow the standard's state equations, so any history of calls yields the standard's output.", "quantifier": "all seeds, additional inputs and call histories", "why_tests_cant": "state machine histories", "anchors": ["src/2-prng/hmac-drbg.c"]}
{"id": "C25", "title": "CTR_DRBG output and backtracking resistance", "statement": "Over any history of seed/reseed/generate calls the outputs of CTR_DRBG are those of SP 800-90A; in particular after CTR_DRBG_Generate the internal state is not derivable from the returned octets (the generator continues past the output blocks).", "quantifier": "all states and output lengths", "why_tests_cant": "state after Generate is never inspected by the tests", "anchors": ["src/2-prng/ctr-drbg.c:CTR_DRBG_Generate"]}
{"id": "C26", "title": "BLAKE2 streaming", "statement": "BLAKE2b/BLAKE2s digests, keyed or not, are those of RFC 7693 of the concatenated input, whatever the cutting into Update calls; Final can be repeated; output and key lengths outside the RFC's range are refused.", "quantifier": "all messages and cuttings", "why_tests_cant": "block-boundary and chunking cases are infinite", "anchors": ["src/2-hash/blake2.c"]}
{"id": "C27", "title": "BLAKE3 tree", "statement": "BLAKE3 and keyed BLAKE3 return octets of the specified output stream for the concatenated input, wherever the input and the output are cut and in whatever order worker threads hash the chunks; Final may be repeated, Read may rewind; keys not of 32 octets are refused.", "quantifier": "all messages below 2^64 octets, cuttings, keys, job orders and sequences of Final and Read", "why_tests_cant": "unbounded tree shapes and schedules", "anchors": ["src/2-hash/blake3.c"]}
{"id": "C28", "title": "KangarooTwelve tree hashing", "statement": "KT128, KT256 and MarsupilamiFourteen return octets of the specified output stream for the message and customisation string, wherever input and output are cut and in whatever order worker threads hash the chunks; Final may be repeated, Read may rewind; no assert fails.", "quantifier": "all message and customisation-string lengths, cuttings, job orders and sequences of Final and Read", "why_tests_cant": "chunk boundary cases; the length encoding fails only for huge inputs", "anchors": ["src/2-hash/KangarooTwelve.c"]}
{"id": "C29", "title": "Thread crew runs every job exactly once", "statement": "Each job handed to the crew is executed exactly once and wait returns only after all jobs enqueued before it finished; no deadlock.", "quantifier": "all schedules of the crew's threads and all enqueue/wait histories", "why_tests_cant": "interleavings cannot be enumerated by tests", "anchors": ["src/1-oslib/TCrew.c", "src/1-oslib/TCrew-common.h"]}
{"id": "C30", "title": "Fast curve-prime reduction", "statement": "The special-form reductions of secp256r1, secp384r1, SM2, p25519 and p448 return the residue of their input modulo the prime, in canonical form.", "quantifier": "all inputs of every word count", "why_tests_cant": "the non-canonical result occurs only for inputs congruent to 0", "anchors": ["src/2-ec/curve-secp256r1.c:remv_inplace", "src/2-ec/curve-secp384r1.c:remv_inplace", "src/2-ec/curveSM2.c:remv_inplace", "src/2-ec/modp25519.c:remv_inplace", "src/2-ec/modp448.c:remv_inplace"]}
{"id": "C31", "title": "Signed reduction for curve arithmetic", "statement": "ecp_imod_inplace maps two's-complement words to the residue modulo p.", "quantifier": "all words", "why_tests_cant": "sign and multiple-of-p corner cases", "anchors": ["src/2-ec/ec-common.c:ecp_imod_inplace"]}
{"id": "C32", "title": "Fermat inversion and square roots", "statement": "vlong_inv_mod_p_fermat computes x^(p-2) and vlong_sqrt_c3m4 computes x^((p+1)/4), hence inverses/square roots.", "quantifier": "all field elements and moduli whose low word does not borrow", "why_tests_cant": "exponent surgery (carry between words) is modulus dependent", "anchors": ["src/2-ec/ec-common.c:vlong_modexpv_shiftadded", "src/2-ec/ecp-xyz.c:vlong_sqrt_c3m4", "src/2-ec/ecp-xyz.c:vlong_inv_mod_p_fermat"]}
{"id": "C33", "title": "Weierstrass point addition is complete", "statement": "ecp_point_add_rcb15 and ecp_point_dbl_fast evaluate the chord-and-tangent group law (Renes-Costello-Batina complete formulas) in projective coordinates.", "quantifier": "all points and curve coefficients", "why_tests_cant": "algebraic identity over a 256-bit field", "anchors": ["src/2-ec/ecp-xyz.c:ecp_point_add_rcb15", "src/2-ec/ecp-xyz.c:ecp_point_dbl_fast"]}
{"id": "C34", "title": "Scalar multiplication", "statement": "The constant-time double-and-add adds exactly scalar * base to the accumulator.", "quantifier": "all scalars, bases and accumulators, any group", "why_tests_cant": "2^256 scalars", "anchors": ["src/2-ec/ecp-xyz.c:ecp_point_scale_accumulate", "src/2-ec/ecEd.c:ecEd_point_scale_accumulate"]}
{"id": "C35", "title": "Edwards point arithmetic", "statement": "ecEd_point_add / ecEd_point_dbl evaluate the twisted Edwards addition law in extended coordinates and preserve T = XY/Z.", "quantifier": "all points", "why_tests_cant": "algebraic identity", "anchors": ["src/2-ec/ecEd.c:ecEd_point_add", "src/2-ec/ecEd.c:ecEd_point_dbl"]}
{"id": "C36", "title": "Public point decoding", "statement": "ecp_point_decode succeeds only for octet strings of the right shape that denote a point on the curve, delivers that point, and inverts ecp_point_encode (both compressed and uncompressed).", "quantifier": "all octet strings", "why_tests_cant": "adversarial encodings; the KEM-ciphertext path re-decodes with clobbered registers", "anchors": ["src/2-ec/ecp-pubkey-codec.c:ecp_point_decode", "src/2-ec/ecp-pubkey-codec.c:ecp_point_encode", "src/3-sec1/ecdh-kem.c:ECDH_KEM_Decode_Ciphertext"]}
{"id": "C37", "title": "ECDSA sign/verify", "statement": "A signature made by ECDSA_Sign verifies under the matching public key, and ECDSA_Verify rejects r or s outside [1,n-1].", "quantifier": "all keys, nonces, messages", "why_tests_cant": "depends on algebra over the whole group; x-coordinates between n and p are never hit at random", "anchors": ["src/3-sec1/ecdsa.c"]}
{"id": "C38", "title": "SM2 sign/verify", "statement": "A signature made by SM2SIG_Sign verifies, out-of-range components are rejected, and signing terminates for every key the decoder accepts.", "quantifier": "all keys, nonces, messages", "why_tests_cant": "the diverging key d = n-1 is never tested", "anchors": ["src/3-sm2/sm2sig.c"]}
{"id": "C39", "title": "EdDSA sign/verify", "statement": "EdDSA key derivation, signing (plain, with context and prehashed), point decoding and verification do what RFC 8032 says: the octets of the public key and of the signature are the RFC's, a signature verifies exactly when the group equation holds for the decoded points and S is below L, and what is signed verifies.", "quantifier": "all keys and messages", "why_tests_cant": "algebra over the whole group", "anchors": ["src/3-rfc-7748,8032/eddsa.c"]}
{"id": "C40", "title": "A verification verdict belongs to the message it is asked about", "statement": "Calling Verify for a message reports success only if the loaded signature is valid for that message.", "quantifier": "all call histories", "why_tests_cant": "only visible when one context verifies two messages", "anchors": ["src/3-sec1/ecdsa.c:ECDSA_Verify", "src/3-sm2/sm2sig.c:SM2SIG_Verify", "src/3-rfc-7748,8032/eddsa.c:EdDSA_Verify"]}
{"id": "C41", "title": "RSASSA-PSS verification rejects invalid signatures", "statement": "RSASSA_PSS_Verify succeeds only if the PSS consistency check passes.", "quantifier": "all signatures and messages", "why_tests_cant": "tests feed mostly valid signatures", "anchors": ["src/3-pkcs1/rsassa-pss-verify.c"]}
{"id": "C42", "title": "RSASSA-PKCS1-v1_5 verification rejects invalid signatures", "statement": "RSAEncryptionWithHash_Verify succeeds only if the recovered encoding equals the expected one.", "quantifier": "all signatures and messages", "why_tests_cant": "tests feed mostly valid signatures", "anchors": ["src/3-pkcs1/rsassa-pkcs1-v1_5-verify.c"]}
{"id": "C43", "title": "RSAES-OAEP decoding inverts encoding", "statement": "Decryption of an encryption yields the same shared secret; the documented label-check call sequence delivers the secret; malformed blocks are refused.", "quantifier": "all secrets, labels, seeds", "why_tests_cant": "call sequences and adversarial blocks", "anchors": ["src/3-pkcs1/rsaes-oaep-enc.c", "src/3-pkcs1/rsaes-oaep-dec.c"]}
{"id": "C44", "title": "RSAES-PKCS1-v1_5 padding", "statement": "Encryption pads with at least eight non-zero random octets and stays within its buffer; decryption recovers the secret and refuses malformed blocks.", "quantifier": "all RNG outputs", "why_tests_cant": "depends on zero octets in the RNG stream", "anchors": ["src/3-pkcs1/rsaes-pkcs1-v1_5-enc.c", "src/3-pkcs1/rsaes-pkcs1-v1_5-dec.c"]}
{"id": "C45", "title": "RSA with CRT", "statement": "rsa_fastdec inverts rsa_enc for every modulus made of distinct primes and every message below it.", "quantifier": "all key sizes, prime counts and messages", "why_tests_cant": "number theory over all keys", "anchors": ["src/2-rsa/rsa-fastdec.c", "src/2-rsa/rsa-enc.c"]}
{"id": "C46", "title": "RSA key DER codec", "statement": "The RSA public and private key writers report, without a buffer, exactly the length of the RFC 8017 DER encoding, write exactly that encoding at the start of a large enough buffer leaving the rest alone, and return -1 for a smaller one; the parsers read back the integers of any such encoding (any number of primes, any trailing octets) and the modulus's bit length; on every input, whatever a parser stores fits without overlap in the number of octets it announced; and no input makes a parser read outside of it or abort.", "quantifier": "all keys, buffers and inputs", "why_tests_cant": "multi-prime keys and malformed files are not tested", "anchors": ["src/2-rsa/rsa-pubkey-writer-der.c", "src/2-rsa/rsa-pubkey-export-der.c", "src/2-rsa/rsa-privkey-writer-der.c", "src/2-rsa/rsa-pubkey-parser-der.c", "src/2-rsa/rsa-privkey-parser-der.c"]}
{"id": "C47", "title": "Block ciphers decrypt what they encrypt", "statement": "For AES, ARIA, Camellia, SEED and SM4 the decryption function inverts the encryption function under the same expanded key.", "quantifier": "all keys and blocks", "why_tests_cant": "2^128 blocks times 2^256 keys", "anchors": ["src/1-symm/rijndael.c", "src/1-symm-national"]}
{"id": "C48", "title": "Miller-Rabin never rejects a prime", "statement": "The primality test returns composite only for composite numbers.", "quantifier": "all odd candidates", "why_tests_cant": "probability statement about all primes", "anchors": ["src/2-numbertheory/MillerRabin.c"]}
{"id": "C49", "title": "GHASH multiplication", "statement": "The GF(2^128) multiplication used by GCM is the polynomial multiplication modulo x^128+x^7+x^2+x+1 in GCM bit order.", "quantifier": "all pairs of field elements", "why_tests_cant": "2^256 pairs", "anchors": ["src/1-symm/galois128.c"]}
{"id": "C50", "title": "Extended Euclid", "statement": "The modular inverse routine returns an inverse whenever the arguments are coprime.", "quantifier": "all arguments", "why_tests_cant": "unbounded loop", "anchors": ["src/2-numbertheory/EGCD.c"]}
{"id": "C51", "title": "X25519/X448 key agreement encoding", "statement": "Private keys are clamped and u-coordinates decoded as in RFC 7748, the ladder computes the RFC's function for every scalar and u, and the two sides of an XECDH exchange obtain the same shared secret.", "quantifier": "all scalars and u-coordinates", "why_tests_cant": "2^255 inputs", "anchors": ["src/3-rfc-7748,8032/rfc-7748.c", "src/2-ec/ecMt.c:ecMt_point_scale"]}
{"id": "C52", "title": "RSA key derivation", "statement": "From distinct odd primes rsa_keygen derives a modulus, private exponent and CRT parameters such that decryption with CRT inverts encryption for every message; candidates are odd with the requested bit length.", "quantifier": "all distinct odd primes of any number and size, all RNG outputs", "why_tests_cant": "keys are random; tests see a handful", "anchors": ["src/2-rsa/rsa-keygen.c"]}
{"id": "C53", "title": "ECDH-KEM key agreement", "statement": "The secret ECDH_KEM_Enc returns is the one ECDH_KEM_Dec computes from the ciphertext with the private key, namely the x-coordinate of the shared point in big-endian octets.", "quantifier": "all domains, key pairs and random octets", "why_tests_cant": "all nonces and keys", "anchors": ["src/3-sec1/ecdh-kem.c"]}
{"id": "C54", "title": "Signature octets (ECDSA, SM2)", "statement": "The encoder announces the length of, and writes into any sufficient buffer, the DER of Ecdsa-Sig-Value; decoding it restores r and s; a signature that was produced, encoded, decoded elsewhere and verified is accepted; octets that are accepted contain a valid signature.", "quantifier": "all register contents, buffers, key pairs, messages and random octets", "why_tests_cant": "all values of r and s and all buffers", "anchors": ["src/3-ecc-common/ecc-common.c:ber_tlv_ecc_encode_dss_signature,ber_tlv_ecc_decode_dss_signature", "src/3-sec1/ecdsa.c:ECDSA_Encode_Signature", "src/3-sm2/sm2sig.c:SM2SIG_Encode_Signature"]}
{"id": "C55", "title": "Private-key octets (ECDSA/SM2/ECDH-KEM, EdDSA, XECDH)", "statement": "The stored form of a private key is the one its standard prescribes, exactly the octet strings of the right length (and, for ECDSA/SM2/ECDH, of numbers in [1, n-1]) are accepted, and a key that is stored and loaded again has the same scalar and public key.", "quantifier": "all keys, octet strings and buffer lengths", "why_tests_cant": "2^256 keys", "anchors": ["src/3-ecc-common/ecc-common.c:ECC_Encode_PrivateKey,ECC_Decode_PrivateKey", "src/3-rfc-7748,8032/eddsa.c:EdDSA_Encode_PrivateKey,EdDSA_Decode_PrivateKey", "src/3-rfc-7748,8032/rfc-7748.c:XECDH_Encode_PrivateKey,XECDH_Decode_PrivateKey"]}
{"id": "C56", "title": "SM2 signer identification", "statement": "The value Z that SM2 signatures prepend to the message is the hash of ENTL, ID, a, b, xG, yG, xA, yA as GM/T 0003.2 prescribes, signer and verifier agree on it, and different IDs hash different octets.", "quantifier": "all domains, keys and IDs of any length", "why_tests_cant": "IDs are unbounded", "anchors": ["src/3-sm2/sm2sig.c:sm2sig_setZ,SM2SIG_Sign_Xctrl,SM2SIG_Verify_Xctrl"]}
{"id": "C57", "title": "RSA signatures are valid", "statement": "For every RSA key pair (two or more primes), message, cutting into updates and salt, the signature octets RSASSA-PSS and RSASSA-PKCS1-v1_5 hand out have ceil(bits/8) octets, are valid by RFC 8017 under the public key, and the library's own check accepts them; a modulus too short is refused, and after a refusal no signature comes out.", "quantifier": "all keys, messages, salts, cuttings and stale buffer contents", "why_tests_cant": "keys and messages are unbounded", "anchors": ["src/3-pkcs1/rsassa-pss-sign.c:RSASSA_PSS_Sign,RSASSA_PSS_Encode_Signature", "src/3-pkcs1/rsassa-pkcs1-v1_5-sign.c:RSAEncryptionWithHash_Sign", "src/2-rsa/rsa-fastdec.c:rsa_fastdec"]}
{"id": "C58", "title": "AES with processor instructions", "statement": "On x86 (AES-NI), Arm and Power the instruction code of AES returns, for every round count, key schedule and block and in both directions, what the portable code returns, and hence FIPS 197.", "quantifier": "all key schedules, round counts and blocks", "why_tests_cant": "2^128 blocks times 2^256 keys, and the Arm and Power files are not built on the test machine", "anchors": ["src/1-symm/rijndael-x86.c:NI_Rijndael_Nb4_Cipher,NI_Rijndael_Nb4_InvCipher", "src/1-symm/rijndael-arm.c:NI_Rijndael_Nb4_Cipher,NI_Rijndael_Nb4_InvCipher", "src/1-symm/rijndael-ppc.c:NI_Rijndael_Nb4_Cipher,NI_Rijndael_Nb4_InvCipher"]}
{"id": "C59", "title": "GHASH with processor instructions", "statement": "On x86, Arm and Power the carry-less-multiply code of GHASH stores, for every accumulator, hash key and block (or NULL), the product of SP 800-38D, which is what the portable code stores.", "quantifier": "all accumulators, hash keys and blocks", "why_tests_cant": "2^256 operand pairs; the folding reduction errs on a sliver of them", "anchors": ["src/1-symm/galois128-x86.c:galois128_hash1block_ni", "src/1-symm/galois128-arm.c:galois128_hash1block_ni", "src/1-symm/galois128-ppc.c:galois128_hash1block_ni"]}
{"id": "C60", "title": "SHA-1 and SHA-2 with processor instructions", "statement": "The compression functions written with the SHA instructions of x86 and Arm compute, for every chaining value and block, what FIPS 180-4 defines and the portable code computes; so a hashing session in any cutting, with either variant compiled in, delivers the same digest.", "quantifier": "all chaining values, blocks, messages and cuttings", "why_tests_cant": "2^512 blocks; the source itself notes that the x86 code could not be tested, and the Arm file is not built on the test machine", "anchors": ["src/1-symm/fips-180-x86.c:compressfunc_sha1_ni,compressfunc_sha256_ni,compressfunc_sha512_ni", "src/1-symm/fips-180-arm.c:compressfunc_sha1_ni,compressfunc_sha256_ni,compressfunc_sha512_ni"]}
{"id": "C61", "title": "SM4 and Keccak: the standards, and Arm instructions", "statement": "The portable SM4 is the cipher of GB/T 32907 in both directions; the SM4 written with Arm instructions produces the same round keys and the same blocks, from either routine's round keys; the Keccak-p[1600] permutation written with Arm instructions is that of FIPS 202 for every round count, and any XOF session on it reads the stream FIPS 202 defines.", "quantifier": "all keys, round-key arrays, blocks, states, round counts, cuttings and read sizes", "why_tests_cant": "2^256 key/block pairs, 2^1600 states, and the Arm files are not built on the test machine", "anchors": ["src/1-symm-national/sm4.c:SM4Encrypt,SM4Decrypt,SM4KeySched", "src/1-symm-national/sm4-arm.c:NI_SM4Encrypt,NI_SM4Decrypt,NI_SM4KeySched", "src/1-symm/keccak-arm.c.h:KeccakP1600_Permute_ni"]}
