import json
P=[]
def p(title,statement,quant,why,anchors):
    P.append(dict(id="C%02d"%(len(P)+1),title=title,statement=statement,quantifier=quant,why_tests_cant=why,anchors=anchors))
V="src/1-integers/vlong.c:"
p("Multi-word addition and subtraction are exact","vlong_addv, vlong_subv and vlong_adds store in out the exact sum/difference of their operands modulo 2^(32*out->c), whatever the three operand widths are, and change nothing but out's words.","all operand widths and word contents (scalar operands in the documented range -UINT32_MAX..UINT32_MAX)","carries of arbitrary length between operands of arbitrary, different widths; tests only sample",[V+"vlong_addv",V+"vlong_subv",V+"vlong_adds"])
p("Multi-word comparison is numeric order","vlong_cmps and vlong_cmpv_shifted return 0, 1 or 2 exactly when the first operand is equal to, greater than or less than the second operand (the latter shifted left by the given number of bits).","all word values, all widths, all shift amounts","branch-free bit tricks must be right for every pair of 32-bit words and for every width/shift combination",[V+"vlong_cmps",V+"vlong_cmpv_shifted"])
p("In-place remainder","vlong_remv_inplace replaces a by a mod b for every non-zero b, and returns NULL exactly when a has fewer words than b.","all widths and values with b non-zero","result must be right for every dividend/divisor, including widths never tested",[V+"vlong_remv_inplace"])
p("Long division","vlong_divv delivers quotient and remainder with a = q*b + r and 0 <= r < b for every non-zero divisor, or NULL when an output is too small.","all widths and values with b non-zero","correctness is lost only on divisors with the top bit set and no spare word; random tests with slack never see it",[V+"vlong_divv"])
p("Signed modular reduction","vlong_imod_inplace maps a two's-complement number to its least non-negative residue modulo b.","all widths and values, b positive and small enough to have a spare sign bit","needs every negative/positive/zero/multiple-of-b case",[V+"vlong_imod_inplace"])
p("Scalar multiplication","vlong_muls computes a*b (+out) modulo 2^(32*out->c) for every 32-bit b, and vlong_imuls does so for every signed b it accepts.","all widths, values and multipliers","the carry handling is wrong only for particular multiplier ranges",[V+"vlong_muls",V+"vlong_imuls"])
p("Modular multiplication and exponentiation","vlong_mulv_masked with a modular-reduction callback gives a*b mod m, and vlong_modexpv gives base^e mod m.","all bases, exponents and moduli that leave the documented spare word","unbounded exponent length and operand widths",[V+"vlong_mulv_masked",V+"vlong_modexpv"])
p("Integer/octet-string conversion","vlong_OS2IP / vlong_I2OSP are big-endian, vlong_DecLSB / vlong_EncLSB little-endian conversions, mutually inverse for every value that fits, zero-extending on the high side.","all lengths, all octet strings, all word counts","codec round-trip over every length relation between octets and words",["src/1-integers/vlong-dat.c:vlong_OS2IP","src/1-integers/vlong-dat.c:vlong_I2OSP","src/1-integers/vlong-dat.c:vlong_EncLSB","src/1-integers/vlong-dat.c:vlong_DecLSB"])
p("DER length round-trip","A length written by ber_put_len or ber_push_len is read back unchanged by ber_get_len, consuming exactly the octets written, and the two writers emit identical octets.","all lengths below 2^56 and all trailing data","unbounded numeric domain",["src/2-asn1/der-codec.c:ber_put_len","src/2-asn1/der-codec.c:ber_push_len","src/2-asn1/der-codec.c:ber_get_len"])
p("DER tag round-trip","Every tag number up to the advertised 28 bits written by ber_put_tag / ber_push_tag is read back by ber_get_tag with the same class and number.","all 28-bit tag numbers, all classes, both primitive/constructed flags","2^30 tag values; the failing ones (31 and those above 2^21) are not used by the test-suite",["src/2-asn1/der-codec.c:ber_put_tag","src/2-asn1/der-codec.c:ber_push_tag","src/2-asn1/der-codec.c:ber_get_tag"])
p("DER parsing stays inside the buffer","ber_get_tag, ber_get_len and ber_get_hdr never read an octet outside the given buffer, and on success the announced contents fit in what remains.","all octet strings of all lengths","attacker-controlled input; memory-safety must hold for every truncation",["src/2-asn1/der-codec.c:ber_get_hdr","src/2-asn1/der-codec.c:ber_get_tag","src/2-asn1/der-codec.c:ber_get_len"])
p("DER INTEGER codec","ber_tlv_encode_integer emits the unique minimal non-negative DER contents octets of the number, and ber_tlv_decode_integer recovers the number; ber_tlv_put_integer is tag, length and those contents and fails iff the buffer is too small.","all numbers of all word counts","minimality and sign-octet rule must hold at every byte boundary",["src/2-asn1/der-codec.c:ber_tlv_encode_integer","src/2-asn1/der-codec.c:ber_tlv_decode_integer","src/2-asn1/der-codec.c:ber_tlv_put_integer"])
p("Buffer splice","ber_util_splice_insert moves the block found at the given offset in front of the leading block without losing or duplicating any octet.","all block lengths and offsets satisfying the documented assumption","the in-place rotation loop has data-dependent segment splits",["src/2-asn1/der-codec.c:ber_util_splice_insert"])
p("Merkle-Damgard hashes: chunking invariance and padding","For SHA-1/224/256/384/512/SM3 the digest depends only on the concatenation of the octets passed to Update, and equals the standard's pad-then-iterate definition.","all messages and all ways of cutting them into Update calls","infinitely many chunkings, block-boundary cases",["src/2-hash/sha.c:SHA256_Update","src/2-hash/sha.c:SHA256_Final","src/2-hash/sm3.c:SM3_Update","src/2-hash/sm3.c:SM3_Final"])
p("Merkle-Damgard hashes: Final is repeatable","Calling Final again (any output length) yields prefixes of / zero-extended copies of the same digest and never changes it.","all states, all sequences of Final calls and lengths","histories of calls",["src/2-hash/sha.c:SHA1_Final","src/2-hash/sha.c:SHA512_Final"])
p("Sponge hashes and XOFs: chunking invariance","SHA-3, SHAKE and the Gimli XOF: absorbing in any pieces and squeezing in any pieces produces the stream defined by the sponge construction on the concatenated input.","all inputs, all cuttings of input and of output","infinitely many call histories",["src/1-symm/sponge.c:Sponge_Update","src/1-symm/sponge.c:Sponge_Read","src/2-hash/sha3.c","src/2-xof/shake.c"])
p("HMAC equals RFC 2104 and is reusable","HMAC_Update in any pieces then HMAC_Final gives H((K^opad)||H((K^ipad)||m)); a second Final gives the same tag; keys longer than the block are refused.","all keys, messages, cuttings","quantifies over call histories and any hash",["src/2-mac/hmac.c:HMAC_SetKey","src/2-mac/hmac.c:HMAC_Update","src/2-mac/hmac.c:HMAC_Final"])
p("CMAC equals SP 800-38B and Final is repeatable","CMAC over any cutting of the message gives the SP 800-38B tag, and calling CMAC_Final again returns the same tag.","all messages, cuttings, block ciphers","call histories; the finalised flag is lost by an 8-bit truncation only visible on a second Final",["src/2-mac/cmac.c:CMAC_Update","src/2-mac/cmac.c:CMAC_Final"])
p("KMAC equals SP 800-185 and Final is repeatable","KMAC over any cutting of the message gives the cSHAKE-based definition; a repeated Final returns the same tag.","all keys, customisation strings, messages, output lengths","call histories",["src/2-mac/kmac.c"])
p("GCM decryption inverts encryption and authenticates","GCM_Decrypt accepts exactly the tags GCM_Encrypt produces, returns the plaintext then, and otherwise returns NULL without writing any plaintext.","all keys (any 128-bit block cipher), nonces, AAD, messages, tag lengths","unbounded lengths, arbitrary forged inputs",["src/2-encryption/gcm.c:GCM_Encrypt","src/2-encryption/gcm.c:GCM_Decrypt"])
p("CCM decryption inverts encryption and terminates","CCM_Encrypt and CCM_Decrypt terminate for every accepted length and are mutually inverse.","all admissible lengths","non-termination starts at 32 octets of payload, beyond the test vectors",["src/2-encryption/ccm.c:CCM_Encrypt","src/2-encryption/ccm.c:CCM_Decrypt"])
p("ChaCha20-Poly1305 AEAD","Decrypt accepts exactly the tag Encrypt produces and inverts it; the key stream of a message never reuses the block that keyed the authenticator.","all keys, nonces, AAD, messages up to the accepted length","the counter wraps only for messages near 2^38 octets",["src/2-encryption/chacha20-poly1305.c:ChaCha_AEAD_Encrypt","src/2-encryption/chacha20-poly1305.c:ChaCha_AEAD_Decrypt"])
p("Poly1305 equals RFC 8439","The tag is (sum of clamped-key polynomial mod 2^130-5) + s mod 2^128 for every message.","all keys and messages","final reduction matters only for a sliver of accumulator values",["src/1-symm/poly1305.c"])
p("HMAC_DRBG equals SP 800-90A","Instantiate/reseed/generate follow the standard's state equations, so any history of calls yields the standard's output.","all seeds, additional inputs and call histories","state machine histories",["src/2-prng/hmac-drbg.c"])
p("CTR_DRBG output and backtracking resistance","Over any history of seed/reseed/generate calls the outputs of CTR_DRBG are those of SP 800-90A; in particular after CTR_DRBG_Generate the internal state is not derivable from the returned octets (the generator continues past the output blocks).","all states and output lengths","state after Generate is never inspected by the tests",["src/2-prng/ctr-drbg.c:CTR_DRBG_Generate"])
p("BLAKE2 streaming","BLAKE2b/BLAKE2s digests, keyed or not, are those of RFC 7693 of the concatenated input, whatever the cutting into Update calls; Final can be repeated; output and key lengths outside the RFC's range are refused.","all messages and cuttings","block-boundary and chunking cases are infinite",["src/2-hash/blake2.c"])
p("BLAKE3 tree","BLAKE3 and keyed BLAKE3 return octets of the specified output stream for the concatenated input, wherever the input and the output are cut and in whatever order worker threads hash the chunks; Final may be repeated, Read may rewind; keys not of 32 octets are refused.","all messages below 2^64 octets, cuttings, keys, job orders and sequences of Final and Read","unbounded tree shapes and schedules",["src/2-hash/blake3.c"])
p("KangarooTwelve tree hashing","KT128, KT256 and MarsupilamiFourteen return octets of the specified output stream for the message and customisation string, wherever input and output are cut and in whatever order worker threads hash the chunks; Final may be repeated, Read may rewind; no assert fails.","all message and customisation-string lengths, cuttings, job orders and sequences of Final and Read","chunk boundary cases; the length encoding fails only for huge inputs",["src/2-hash/KangarooTwelve.c"])
p("Thread crew runs every job exactly once","Each job handed to the crew is executed exactly once and wait returns only after all jobs enqueued before it finished; no deadlock.","all schedules of the crew's threads and all enqueue/wait histories","interleavings cannot be enumerated by tests",["src/1-oslib/TCrew.c","src/1-oslib/TCrew-common.h"])
C="src/2-ec/"
p("Fast curve-prime reduction","The special-form reductions of secp256r1, secp384r1, SM2, p25519 and p448 return the residue of their input modulo the prime, in canonical form.","all inputs of every word count","the non-canonical result occurs only for inputs congruent to 0",[C+"curve-secp256r1.c:remv_inplace",C+"curve-secp384r1.c:remv_inplace",C+"curveSM2.c:remv_inplace",C+"modp25519.c:remv_inplace",C+"modp448.c:remv_inplace"])
p("Signed reduction for curve arithmetic","ecp_imod_inplace maps two's-complement words to the residue modulo p.","all words","sign and multiple-of-p corner cases",[C+"ec-common.c:ecp_imod_inplace"])
p("Fermat inversion and square roots","vlong_inv_mod_p_fermat computes x^(p-2) and vlong_sqrt_c3m4 computes x^((p+1)/4), hence inverses/square roots.","all field elements and moduli whose low word does not borrow","exponent surgery (carry between words) is modulus dependent",[C+"ec-common.c:vlong_modexpv_shiftadded",C+"ecp-xyz.c:vlong_sqrt_c3m4",C+"ecp-xyz.c:vlong_inv_mod_p_fermat"])
p("Weierstrass point addition is complete","ecp_point_add_rcb15 and ecp_point_dbl_fast evaluate the chord-and-tangent group law (Renes-Costello-Batina complete formulas) in projective coordinates.","all points and curve coefficients","algebraic identity over a 256-bit field",[C+"ecp-xyz.c:ecp_point_add_rcb15",C+"ecp-xyz.c:ecp_point_dbl_fast"])
p("Scalar multiplication","The constant-time double-and-add adds exactly scalar * base to the accumulator.","all scalars, bases and accumulators, any group","2^256 scalars",[C+"ecp-xyz.c:ecp_point_scale_accumulate",C+"ecEd.c:ecEd_point_scale_accumulate"])
p("Edwards point arithmetic","ecEd_point_add / ecEd_point_dbl evaluate the twisted Edwards addition law in extended coordinates and preserve T = XY/Z.","all points","algebraic identity",[C+"ecEd.c:ecEd_point_add",C+"ecEd.c:ecEd_point_dbl"])
p("Public point decoding","ecp_point_decode succeeds only for octet strings of the right shape that denote a point on the curve, delivers that point, and inverts ecp_point_encode (both compressed and uncompressed).","all octet strings","adversarial encodings; the KEM-ciphertext path re-decodes with clobbered registers",[C+"ecp-pubkey-codec.c:ecp_point_decode",C+"ecp-pubkey-codec.c:ecp_point_encode","src/3-sec1/ecdh-kem.c:ECDH_KEM_Decode_Ciphertext"])
p("ECDSA sign/verify","A signature made by ECDSA_Sign verifies under the matching public key, and ECDSA_Verify rejects r or s outside [1,n-1].","all keys, nonces, messages","depends on algebra over the whole group; x-coordinates between n and p are never hit at random",["src/3-sec1/ecdsa.c"])
p("SM2 sign/verify","A signature made by SM2SIG_Sign verifies, out-of-range components are rejected, and signing terminates for every key the decoder accepts.","all keys, nonces, messages","the diverging key d = n-1 is never tested",["src/3-sm2/sm2sig.c"])
p("EdDSA sign/verify","EdDSA key derivation, signing (plain, with context and prehashed), point decoding and verification do what RFC 8032 says: the octets of the public key and of the signature are the RFC's, a signature verifies exactly when the group equation holds for the decoded points and S is below L, and what is signed verifies.","all keys and messages","algebra over the whole group",["src/3-rfc-7748,8032/eddsa.c"])
p("A verification verdict belongs to the message it is asked about","Calling Verify for a message reports success only if the loaded signature is valid for that message.","all call histories","only visible when one context verifies two messages",["src/3-sec1/ecdsa.c:ECDSA_Verify","src/3-sm2/sm2sig.c:SM2SIG_Verify","src/3-rfc-7748,8032/eddsa.c:EdDSA_Verify"])
p("RSASSA-PSS verification rejects invalid signatures","RSASSA_PSS_Verify succeeds only if the PSS consistency check passes.","all signatures and messages","tests feed mostly valid signatures",["src/3-pkcs1/rsassa-pss-verify.c"])
p("RSASSA-PKCS1-v1_5 verification rejects invalid signatures","RSAEncryptionWithHash_Verify succeeds only if the recovered encoding equals the expected one.","all signatures and messages","tests feed mostly valid signatures",["src/3-pkcs1/rsassa-pkcs1-v1_5-verify.c"])
p("RSAES-OAEP decoding inverts encoding","Decryption of an encryption yields the same shared secret; the documented label-check call sequence delivers the secret; malformed blocks are refused.","all secrets, labels, seeds","call sequences and adversarial blocks",["src/3-pkcs1/rsaes-oaep-enc.c","src/3-pkcs1/rsaes-oaep-dec.c"])
p("RSAES-PKCS1-v1_5 padding","Encryption pads with at least eight non-zero random octets and stays within its buffer; decryption recovers the secret and refuses malformed blocks.","all RNG outputs","depends on zero octets in the RNG stream",["src/3-pkcs1/rsaes-pkcs1-v1_5-enc.c","src/3-pkcs1/rsaes-pkcs1-v1_5-dec.c"])
p("RSA with CRT","rsa_fastdec inverts rsa_enc for every modulus made of distinct primes and every message below it.","all key sizes, prime counts and messages","number theory over all keys",["src/2-rsa/rsa-fastdec.c","src/2-rsa/rsa-enc.c"])
p("RSA key DER codec","The RSA public and private key writers report, without a buffer, exactly the length of the RFC 8017 DER encoding, write exactly that encoding at the start of a large enough buffer leaving the rest alone, and return -1 for a smaller one; the parsers read back the integers of any such encoding (any number of primes, any trailing octets) and the modulus's bit length; on every input, whatever a parser stores fits without overlap in the number of octets it announced; and no input makes a parser read outside of it or abort.","all keys, buffers and inputs","multi-prime keys and malformed files are not tested",["src/2-rsa/rsa-pubkey-writer-der.c","src/2-rsa/rsa-pubkey-export-der.c","src/2-rsa/rsa-privkey-writer-der.c","src/2-rsa/rsa-pubkey-parser-der.c","src/2-rsa/rsa-privkey-parser-der.c"])
p("Block ciphers decrypt what they encrypt","For AES, ARIA, Camellia, SEED and SM4 the decryption function inverts the encryption function under the same expanded key.","all keys and blocks","2^128 blocks times 2^256 keys",["src/1-symm/rijndael.c","src/1-symm-national"])
p("Miller-Rabin never rejects a prime","The primality test returns composite only for composite numbers.","all odd candidates","probability statement about all primes",["src/2-numbertheory/MillerRabin.c"])
p("GHASH multiplication","The GF(2^128) multiplication used by GCM is the polynomial multiplication modulo x^128+x^7+x^2+x+1 in GCM bit order.","all pairs of field elements","2^256 pairs",["src/1-symm/galois128.c"])
p("Extended Euclid","The modular inverse routine returns an inverse whenever the arguments are coprime.","all arguments","unbounded loop",["src/2-numbertheory/EGCD.c"])
p("X25519/X448 key agreement encoding","Private keys are clamped and u-coordinates decoded as in RFC 7748, the ladder computes the RFC's function for every scalar and u, and the two sides of an XECDH exchange obtain the same shared secret.","all scalars and u-coordinates","2^255 inputs",["src/3-rfc-7748,8032/rfc-7748.c",C+"ecMt.c:ecMt_point_scale"])
p("RSA key derivation","From distinct odd primes rsa_keygen derives a modulus, private exponent and CRT parameters such that decryption with CRT inverts encryption for every message; candidates are odd with the requested bit length.","all distinct odd primes of any number and size, all RNG outputs","keys are random; tests see a handful",["src/2-rsa/rsa-keygen.c"])
p("ECDH-KEM key agreement","The secret ECDH_KEM_Enc returns is the one ECDH_KEM_Dec computes from the ciphertext with the private key, namely the x-coordinate of the shared point in big-endian octets.","all domains, key pairs and random octets","all nonces and keys",["src/3-sec1/ecdh-kem.c"])
p("Signature octets (ECDSA, SM2)","The encoder announces the length of, and writes into any sufficient buffer, the DER of Ecdsa-Sig-Value; decoding it restores r and s; a signature that was produced, encoded, decoded elsewhere and verified is accepted; octets that are accepted contain a valid signature.","all register contents, buffers, key pairs, messages and random octets","all values of r and s and all buffers",["src/3-ecc-common/ecc-common.c:ber_tlv_ecc_encode_dss_signature,ber_tlv_ecc_decode_dss_signature","src/3-sec1/ecdsa.c:ECDSA_Encode_Signature","src/3-sm2/sm2sig.c:SM2SIG_Encode_Signature"])
p("Private-key octets (ECDSA/SM2/ECDH-KEM, EdDSA, XECDH)","The stored form of a private key is the one its standard prescribes, exactly the octet strings of the right length (and, for ECDSA/SM2/ECDH, of numbers in [1, n-1]) are accepted, and a key that is stored and loaded again has the same scalar and public key.","all keys, octet strings and buffer lengths","2^256 keys",["src/3-ecc-common/ecc-common.c:ECC_Encode_PrivateKey,ECC_Decode_PrivateKey","src/3-rfc-7748,8032/eddsa.c:EdDSA_Encode_PrivateKey,EdDSA_Decode_PrivateKey","src/3-rfc-7748,8032/rfc-7748.c:XECDH_Encode_PrivateKey,XECDH_Decode_PrivateKey"])
p("SM2 signer identification","The value Z that SM2 signatures prepend to the message is the hash of ENTL, ID, a, b, xG, yG, xA, yA as GM/T 0003.2 prescribes, signer and verifier agree on it, and different IDs hash different octets.","all domains, keys and IDs of any length","IDs are unbounded",["src/3-sm2/sm2sig.c:sm2sig_setZ,SM2SIG_Sign_Xctrl,SM2SIG_Verify_Xctrl"])
p("RSA signatures are valid","For every RSA key pair (two or more primes), message, cutting into updates and salt, the signature octets RSASSA-PSS and RSASSA-PKCS1-v1_5 hand out have ceil(bits/8) octets, are valid by RFC 8017 under the public key, and the library's own check accepts them; a modulus too short is refused, and after a refusal no signature comes out.","all keys, messages, salts, cuttings and stale buffer contents","keys and messages are unbounded",["src/3-pkcs1/rsassa-pss-sign.c:RSASSA_PSS_Sign,RSASSA_PSS_Encode_Signature","src/3-pkcs1/rsassa-pkcs1-v1_5-sign.c:RSAEncryptionWithHash_Sign","src/2-rsa/rsa-fastdec.c:rsa_fastdec"])
p("AES with processor instructions","On x86 (AES-NI), Arm and Power the instruction code of AES returns, for every round count, key schedule and block and in both directions, what the portable code returns, and hence FIPS 197.","all key schedules, round counts and blocks","2^128 blocks times 2^256 keys, and the Arm and Power files are not built on the test machine",["src/1-symm/rijndael-x86.c:NI_Rijndael_Nb4_Cipher,NI_Rijndael_Nb4_InvCipher","src/1-symm/rijndael-arm.c:NI_Rijndael_Nb4_Cipher,NI_Rijndael_Nb4_InvCipher","src/1-symm/rijndael-ppc.c:NI_Rijndael_Nb4_Cipher,NI_Rijndael_Nb4_InvCipher"])
p("GHASH with processor instructions","On x86, Arm and Power the carry-less-multiply code of GHASH stores, for every accumulator, hash key and block (or NULL), the product of SP 800-38D, which is what the portable code stores.","all accumulators, hash keys and blocks","2^256 operand pairs; the folding reduction errs on a sliver of them",["src/1-symm/galois128-x86.c:galois128_hash1block_ni","src/1-symm/galois128-arm.c:galois128_hash1block_ni","src/1-symm/galois128-ppc.c:galois128_hash1block_ni"])
p("SHA-1 and SHA-2 with processor instructions","The compression functions written with the SHA instructions of x86 and Arm compute, for every chaining value and block, what FIPS 180-4 defines and the portable code computes; so a hashing session in any cutting, with either variant compiled in, delivers the same digest.","all chaining values, blocks, messages and cuttings","2^512 blocks; the source itself notes that the x86 code could not be tested, and the Arm file is not built on the test machine",["src/1-symm/fips-180-x86.c:compressfunc_sha1_ni,compressfunc_sha256_ni,compressfunc_sha512_ni","src/1-symm/fips-180-arm.c:compressfunc_sha1_ni,compressfunc_sha256_ni,compressfunc_sha512_ni"])
p("SM4 and Keccak: the standards, and Arm instructions","The portable SM4 is the cipher of GB/T 32907 in both directions; the SM4 written with Arm instructions produces the same round keys and the same blocks, from either routine's round keys; the Keccak-p[1600] permutation written with Arm instructions is that of FIPS 202 for every round count, and any XOF session on it reads the stream FIPS 202 defines.","all keys, round-key arrays, blocks, states, round counts, cuttings and read sizes","2^256 key/block pairs, 2^1600 states, and the Arm files are not built on the test machine",["src/1-symm-national/sm4.c:SM4Encrypt,SM4Decrypt,SM4KeySched","src/1-symm-national/sm4-arm.c:NI_SM4Encrypt,NI_SM4Decrypt,NI_SM4KeySched","src/1-symm/keccak-arm.c.h:KeccakP1600_Permute_ni"])
with open('/verif/properties.jsonl','w') as f:
    for x in P: f.write(json.dumps(x)+"\n")
print(len(P))
