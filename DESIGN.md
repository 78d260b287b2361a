# Formal model of MySuiteA in Rocq (Coq 8.16.1)

## Method

* The C code in /repo is read as text; each C function that matters becomes a total, computable
  Gallina function with a comment citing file and lines.  Words are `Z` with explicit `mod 2^32`/`mod 2^64`
  where the code relies on wrap-around; `vlong_t` is a little-endian `list Z` of 32-bit words; octet strings
  are `list Z` of octets.  Mutation through a pointer becomes a returned value.
* `NULL`/error returns are `None`; undefined behaviour (out-of-bounds access, over-wide shifts) and
  non-termination are distinct outcomes, never a default value.
* Callbacks and primitives reached through function pointers (hash functions, block ciphers, PRNGs,
  reduction callbacks) are ordinary function arguments, universally quantified in the theorems
  (no axioms, no section-less variables).
* `*.v` files whose name starts with `Prop` contain only theorem statements closed with `exact`, followed by
  `Print Assumptions`, plus non-vacuity examples.
* A property that is false of the code is stated in full and refuted with a witness (`..._refuted`); what does
  hold is proved beside it (`..._partial`).

## Plan per property

| id | what is modelled | how it is proved |
|----|------------------|------------------|
| C01 | vlong_adds/addv/subv word loops with the uint64 carry and its int32 sign extension | induction on words, signed-carry invariant |
| C02 | vlong_cmps bit tricks, vlong_cmpv_shifted's masked scan, vlong_word_shifted | case analysis on 2^32-bounded differences; induction from the top word |
| C03 | vlong_remv_inplace (shift loop, masked subtract) | loop invariant rem < b*2^(i+1) |
| C04 | vlong_divv | loop invariant; refutation for the lost top bit |
| C05 | vlong_imod_inplace | two's-complement value |
| C06 | vlong_muls, vlong_imuls | carry invariant; refutation for large signed multipliers |
| C07 | vlong_mulv_masked, vlong_modexpv | Horner / square-and-multiply invariants |
| C08 | vlong-dat.c | digit-list algebra |
| C09-C13 | der-codec.c | symbolic evaluation, induction on digits; UB outcome for out-of-range reads |
| C14,C15 | sha.c, sm3.c buffering/padding, compression function is a parameter (and concrete for the SHA-2/SM3 message schedule if time permits) | refinement to pad-and-iterate |
| C16 | sponge.c, shake/sha3/gimli wrappers, permutation is a parameter | refinement to stream semantics |
| C17-C19 | hmac.c, cmac.c, kmac.c | refinement; refutations |
| C20-C23 | gcm.c, ccm.c, chacha20-poly1305.c, poly1305.c | algebra of xor, loop invariants; refutations |
| C24,C25 | hmac-drbg.c, ctr-drbg.c | refinement to SP 800-90A; refutation |
| C26-C28 | blake2.c, blake3.c, KangarooTwelve.c | refinement to recursive tree spec |
| C29 | TCrew as a labelled transition system over all schedules | invariants |
| C30-C36 | 2-ec | modular arithmetic, ring identities |
| C37-C42, C53 | signature and key-agreement state machines | the curve groups themselves; refutations |
| C43-C46 | PKCS#1 | buffer models over C45 and the hash interface; number theory |
| C47 | block ciphers | involution/bijection lemmas |
| C48-C52 | number theory, GHASH, X25519 | number theory, polynomial algebra |

## Modelling notes by area

* **C41/C42** (`Pkcs1*.v`): the RSA trapdoor is any function on octet strings of the modulus length; hashes are any
  hash interface satisfying the contract of `HashIface.v`.  The `status` field of the context is modelled, which is
  what makes the refutation visible.
* **C20/C49** (`Gcm*.v`): any 128-bit block cipher `E` (a function from 16 octets to 16 octets); GHASH multiplication is
  modelled with the code's two 64-bit halves and shown equal to multiplication in GF(2)[x] modulo the GCM polynomial.
* **C21** (`Ccm*.v`): the payload loops take an iteration budget; outer `None` means "still running".  Termination is
  therefore part of the statement: `Some` for a budget equal to the payload length up to 31 octets, `None` for every
  budget from 32 octets on.
* **C22/C23** (`ChaCha*.v`): contexts carry the whole state, so histories of operations are folds; Poly1305 limbs are the
  code's 32-bit words with uint64 intermediate products.

* **C25** (`CtrDrbg*.v`): the cipher is any function with AES's key/block sizes; the state is the code's key and counter block.
* **C26** (`Blake2*.v`): one model for the two copies (word size, rounds and rotations are parameters); the buffer, lazy
  compression, counter and Final's in-place overwriting of the buffer are those of the code.
* **C27** (`Blake3*.v`): the 65 nodes as the list that `nind` orders; every Update fills, hashes and climbs as the code does. The order in which
  a batch's jobs run is a parameter (any permutation, per batch): each job works on its own node and reads only fields no other job writes. The
  specification is the recursive tree of the paper (left subtree: the largest power of two of chunks below the total).
* **C28** (`K12*.v`): nodes, final sponge and counters as in the code, chunk size and node count as parameters (so that proofs do not compute with
  8192); the asserts, array bounds and the int shift of the length encoding are partial (None). Invariant: the octets fed so far split into the first
  chunk, chunks already absorbed as chaining values, full nodes and the current node.
* **C46** (`RsaDerSpec.v`, `RsaDer*.v`, `PropRsaDer.v`): the three writers on an octet buffer (in-place shift and header copy as in the code; of the
  16-octet tlbuf only what was written may be read) and the two parsers, both passes, with the offsets they store. Simplified: offsets are unbounded
  integers (C46_*_memory bounds them); a parsed context is returned, not stored at a pointer. Proofs: DER lengths and INTEGERs of C09/C12 composed;
  the layout by accounting for the octets each header consumes.
* **C29** (`TCrew*.v`): a labelled transition system; each critical section under `lockCrew` is one atomic step, each
  unlocked access its own step; threads, callers and spurious wake-ups interleave arbitrarily.
* **C51** (`EcMt.v`, `MtSpec.v`, `EcMtLemmas.v`, `MtLadderLemmas.v`, `MtAgreeLemmas.v`, `PropXecdh.v`): ecMt_point_scale, the key generation,
  encapsulation and decapsulation of rfc-7748.c, and the codecs on their word registers. Every register of the ladder is shown to hold the RFC's
  residue (no overflow of the fast reductions); commutation is proved through the birational twisted Edwards curve and its group law (C35).
* **C39/C40** (`EdDsa.v`, `EddsaSpec.v`, `EdDsa*Lemmas.v`, `EdMulLemmas.v`, `OctetLemmas.v`, `EdOrder.v`, `OrderPrimes.v`, `PropEddsa.v`): eddsa.c and
  eddsa-misc.c on word registers and octet lists, against RFC 8032 with the RFC's own numbers. The order of Ed25519's base point is checked by a straight-line
  program of affine additions whose results are given; L is proved prime. The hash is a parameter with octet output of the requested length.
* **C54** (`DssCodec.v`, `PropDss.v`): the octets of ECDSA and SM2 signatures: encoder and decoder of ecc-common.c:226-322 against the DER of
  `RsaDerSpec.v`, composed with C37/C38 to sign-encode-decode-verify theorems; refutations of unique encoding, of the effect of a failed
  decode and of reads within bounds.
* **C55** (`KeyCodec.v`, `PropKeyCodec.v`): private-key octets of ECC, EdDSA and XECDH keys against the standards' forms, and round trips.
* **C56** (`Sm2Z.v`, `PropSm2Z.v`): sm2sig_setZ as the list of its updatefunc calls; specification `z_octets`; refutations for long IDs.
* **C57** (`RsaSign.v`, `RsaSignLemmas.v`, `PropRsaSign.v`): the signers from EM to octets (sign_maths, Encode_Signature) on top of Pkcs1.v and Rsa.v; rsa_fastdec inverts x -> x^e mod n on [0, n) (CRT + Fermat); validity is `pss_signature_ok`/`v15_signature_ok` of PkcsSpec.v; acceptance by C41/C42's check; refutations for 8j+1-bit moduli and for Encode_Signature after a refusal.
* **C58** (`AesSpec2.v`, `AesNi.v`, `PropAesNi.v`): the intrinsics variants of AES. Instructions are given by their manuals' pseudo-code on 16-octet states, written with FIPS 197's (inverse) round functions; the proof commutes SubBytes/ShiftRows, uses linearity of InvMixColumns, and a half-round-shifted simulation for Arm.
* **C59** (`GaloisNi.v`, `GaloisNiLemmas.v`, `PropGaloisNi.v`): the intrinsics variants of GHASH on 128-bit integers: mirroring is a bit permutation (checked position by position, any operand), the folding is x^128 = x^7+x^2+x+1 by bilinearity of the carry-less product.
* **C60** (`ShaIsa.v`, `ShaNi.v`, `ShaNiLemmas.v`, `ShaNiSteps.v`, `PropShaNi.v`): the intrinsics variants of SHA-1, SHA-256 and SHA-512 (x86, Arm). Instructions are given lane-wise from the manuals (x86's also appear as C in the file); a loop invariant describes the partially computed schedule words in the circular array at each iteration and relates the lane layout to (a..h) after 4i (2i) rounds; the little-endian Arm build is modelled.
* **C61** (`Sm4Spec.v`, `NeonNi.v`, `NeonNiLemmas.v`, `PropNeonNi.v`): an independent GB/T 32907 specification (sliding window of four words; S-box given algebraically, CK by its formula) is refined by the portable SM4 of C47 and by `sm4-arm.c`; four rounds are grouped so that the ring of sm4.c, the lanes of SM4E and the window coincide. `keccak-arm.c.h`'s theta64 and chi64 equal theta and chi of FIPS 202 on every state of 64-bit lanes, so the permutation and the sponge sessions (C16) do too. Trusted here: the instruction definitions in `NeonNi.v`.
* **C36/C37/C38/C40/C53** (`Ecc.v`, `EccSpec.v`, `EccCodecSpec.v`, `Ecc*Lemmas.v`, `EcMulLemmas.v`, `PropEcc.v`, `PropEccSig.v`): point codecs, key
  generation and decoding, ECDSA, SM2 signatures and ECDH-KEM on word registers, over any domain satisfying `domain_ok` (what is assumed of the
  parameters: prime modulus and order, no point of order two, n G = infinity). Associativity of the Weierstrass group law is proved, not assumed.
  A complete instance (y^2 = x^3 - 3x + 25 over F_31, order 23) meets every hypothesis and carries the examples. The random octets are the list of
  strings the rng returns; the hash is a parameter with octet output.
* **C43/C44** (`RsaEs.v`, `RsaEsSpec.v`, `RsaEs*Lemmas.v`, `PropRsaEs.v`): both RSAES schemes, encryption and decryption, the working variables as octet
  buffers, over any key pair meeting C45's conditions and any pair of correct hashes. The decision "encoded or not" is proved exact, for every
  ciphertext. The rng is a function of the call number. Keys of 40 and 101 bits with a one-octet checksum as hash carry the examples.
* **Primality** (`Pocklington.v`, `CurvePrimes.v`): the moduli of Curve25519/Ed25519, Curve448/Ed448, P-256, P-384 and SM2 are proved prime
  from certificates (generator in `tools/pk`), so C35 and C51 carry no number-theoretic hypothesis on the library's curves.
* **C45/C48/C50/C52** (`NumTheory.v`, `Rsa*.v`, `MillerRabin*.v`, `Fermat.v`): word-list models of EGCD, rsa_enc, rsa_fastdec, the
  derivation part of rsa_keygen and MillerRabin.  The rng of MillerRabin is the list of word lists it returns; the
  prime search of rsa_keygen and its threads are not modelled (the primes are given).  Primality is
  the standard library's `prime`; Fermat's little theorem is proved in `Fermat.v`.
* **C30–C35** (`EcMod*.v`, `EcField*.v`, `EcExp*.v`, `EcCurve*.v`, `EcSpec.v`, `EcGroup*.v`, `Ecp*.v`): field elements are the code's
  fixed-width word lists; the invariant of every register is "at most k·p and congruent to x".  Curve points are
  projective triples of such registers; the specification is the textbook chord-and-tangent relation on affine points.

## Trusted base

Coq 8.16.1's kernel (including its VM for `vm_compute`), and the reading of the C text recorded in the
comments.  `Print Assumptions` under every property theorem.
Not modelled: compilers, alignment/layout arithmetic of the context structures (`DeltaTo`), the intrinsics
variants of SM3 (`gbt-32905-arm.c`; those of AES, GHASH, SHA, SM4 and Keccak are C58 to C61), timing side channels, and the OS threading primitives themselves.
