# Formal model of blocktree/go-owcrypt in Rocq (Coq 8.16.1)

## 1. Layout

`rocq/theories/` holds five kinds of files.

* Mathematics that does not mention the code: `Fp` (prime fields, Fermat, square
  roots), `Pock`/`Primes` (Pocklington certificates), `Mont63` (fast modular
  arithmetic on 63-bit integers, proved), `Weier`/`Jac`/`EC` (short Weierstrass
  group law, associativity, Jacobian formulas), `Edw`/`EdCurve` (twisted Edwards
  law), `Group`, `AllOrder`/`OrderCheck` (curve orders), `Curves` (parameters).
* `Spec*`: small specifications written from the standards (ECDSA/SEC 1, SM2, SM3,
  BLAKE, FIPS 202, RFC 8032, RFC 9380, Mina/Pasta, BLS12-381).
* `Model*`: Gallina transcription of the Go code and of the amd64 assembly, one
  definition per function, each with a comment citing file and lines. No proofs.
* `Proof*`: lemmas about the model.
* `Props*`: the property theorems, each followed by `Print Assumptions` and by an
  `Example` exhibiting a concrete instance meeting the hypotheses.

Generated files (mechanical translation of unrolled code: field multiplications,
hash block functions, assembly listings, tables) carry a header naming the
generator in `tools/`; generators read /repo as text.

## 2. Modelling conventions

* A Go `[]byte` is `list Z` with all elements in [0,256) (`bytes_ok`); where the
  code distinguishes nil from empty, the argument is an `option (list Z)`.
* `append` is concatenation and slices are values; code whose behaviour depends on
  two slices sharing memory is modelled separately with an explicit memory
  (`ModelSlice`, property C43).
* `*big.Int` is `Z`; `Mod` is Euclidean (`Z.modulo` with positive modulus);
  `ModInverse` returns an option (`None` models nil); `ModSqrt` returns an option.
* Machine integers are `Z` with explicit wrap (`mod 2^32`, `mod 2^64`, signed wrap
  for int32/int64). No overflow is assumed away. The x86 model has registers,
  CF/OF and a stack frame; registers and stack a routine does not write hold
  arbitrary values.
* Errors are values; a run-time panic is an explicit outcome (`Panic`).
* Loops are structural recursion on lists or fuel-bounded iteration; unbounded
  retry loops (nonce generation) take the stream of random blocks as an argument,
  and `None` means "not finished within the fuel".
* External code is a Section variable or a record field (never an axiom): the
  random source, the AES-CTR generator, SHA-2, RIPEMD-160, MD4/5, BLAKE2b, JSON
  decoding, the packages g1pubs and kyber, the pairing, and for P-256 the Go
  standard library curve. Theorems quantify over all of them, with the contract
  they need as an explicit hypothesis; an instance satisfying it is given.
* "Refuted" theorems prove the negation of the property as stated, for concrete
  inputs or for a whole class of inputs; the `_partial` theorem beside them says
  for which inputs the property does hold.

## 3. What is modelled

| code | model | remarks |
|---|---|---|
| eccset.go | ModelApi | every exported function of the file |
| ecdsa.go, utils.go, secp256k1.go | ModelECDSA, ModelK1 | generic ECDSA over a curve record; P-256 through the contract of crypto/elliptic |
| sm2_std.go | ModelSM2F/P/S | 9-limb field with its tables, group, signature, encryption, key agreement |
| sm3, hashset.go | ModelSM3, ModelHash | |
| blake256, blake512, blake2s | ModelBlake(Code) | all block functions |
| sha3 | ModelSha3(Code), ModelSha3X, ModelKeccakAsm, ModelKeccakX | portable keccakF and keccakf_amd64.s (generated from the text with its macros expanded); ModelSha3X: xor_unaligned.go with the memory behind the slice |
| eddsa/* | ModelEd, ModelEdCode, ModelEdDSA, ModelEdPkg | edwards25519 field, group, scalar code, tables |
| eddsa/curve25519_sha256.go | ModelCsha, ModelCshaCode | all of it: field code, Montgomery ladder, byte arithmetic, Sign, Verify |
| pasta/* | ModelPasta, ModelPastaCode, ModelW64 | Fp/Fq Montgomery code, group, Schnorr, Poseidon, point API; JSON decoding is external |
| bls12_381/bls/arithmetic_fallback.go | ModelBlsF | |
| bls12_381/bls/arithmetic_x86.s | ModelX86, ModelBlsAsm | instruction by instruction |
| bls12_381/bls/{field_element,fp,fp2,g1,g2,hash_to_field,swu,isogeny}.go, bls12_381/*.go | ModelBls, ModelBlsEnc | |
| bls12_381/bls/{fp6,fp12,gt,pairing}.go | ModelBlsGT, ModelBlsExp | tower field, GT, Miller loop, final exponentiation; pairs are values; ModelBlsExp: the loop of GT.Exp for any big integer |

In the theorems C53-C91 on BLS the check of a product of pairings is an oracle; C93
shows that the pairing engine answers it for the optimal ate pairing.

Not modelled: the external packages, generation of
the key material (Keygen with crypto/rand is an oracle), test files.

Not expressible in this model: constant-time behaviour, entropy quality,
computational unforgeability, goroutine schedules (the library has no shared
mutable state after `init`).

## 4. How the properties are proved

* secp256k1, P-256, SM2 (C01-C29, C56-C61, C67, C68): the code's Jacobian formulas
  refine the affine group law over F_p; the group law is proved once for all short
  Weierstrass curves; primality of p and n by Pocklington certificates checked by
  computation; n G = O by computation; that the curve has exactly n points (so that
  every point has order n) by exhibiting a point of order n and bounding the number
  of points.
* SM2 field (C30): the limb code is translated to polynomials over the limbs and the
  bounds of every intermediate word are checked by a verified interval analysis;
  where the bounds fail, concrete operands refute the property.
* Hashes (C31-C37, C62, C63, C96): streaming invariant (state after a list of writes =
  fold over the full blocks plus the buffered tail); generated block functions are
  proved equal to loop-form specifications.
* Ed25519 (C38-C42, C44, C64-C66): completeness and associativity of the Edwards
  law, verified straight-line programs for the 10-limb field, recoding lemmas.
* Discrete logarithms (C99-C101): a group of prime exponent n with fewer than n^2
  elements is cyclic (`CycGroup`, `EcCyc`).
* Keys and forms of a signature (C102, C103): the key determines the point R of the verification
  and conversely; at most four points have the x-coordinate r modulo n (`EcFour`, `EcAlter`).
* Pasta (C45-C51, C69-C71): Montgomery chains by a verified word-polynomial
  checker, shared Weierstrass law, square roots by Tonelli-Shanks invariant.
* BLS12-381 (C52-C55, C72-C76, C84-C95, C97-C100): the primality of p by Goldwasser-Kilian;
  Kaliski inversion, square roots and the two codecs as a representation of the
  shared Weierstrass law over F_p and F_p(i), for any build exact in all routines
  but squaring; the pairing is a parameter with the bilinearity it must have;
  the maps of RFC 9380 by algebra over a generic field (`IsoAlg`: the isogeny sends
  E1 to E2, its kernel is not rational, a non-square first candidate makes the second
  one a square) and by the exponent of the group of the twist, got from points of
  known prime orders and a bound on the number of points (`BlsTors`, `BlsExp`), so that
  clearing the cofactor ends in the subgroup for every point; the isogeny as a
  homomorphism by symmetric functions of the three points of a line (`IsoHom`);
  constants of F_p(i) decided by reflection (`BlsEx`);
  the tower over F_p(i) proved a field (1 + i is no square and no cube, `BlsTower`),
  Frobenius as the p-th power, the final exponentiation by integer identities between
  exponents, the line functions by algebra over a generic field (`AteAlg`) up to factors
  of F_p(i), which the final exponentiation takes to one; the order of GT by counting the
  roots of x^r - 1 and of x(x^k - 1) in the field (`BlsGtNontriv`);
  G1 as a cyclic group because r^2 points have no room in 48 bytes (`CycGroup`),
  G2 because the twist has a point of another large prime order (`BlsG2Cyc`);
  carry-chain lemmas for the Go code, a
  small x86 semantics with a verified taint analysis for the assembly,
  parametricity in the field build, hash function, pairing and external packages.

## 5. Properties, theorems and gaps

The table is generated from `properties.jsonl` and `MANIFEST.json`.

| id | property | status | theorems | remarks |
|---|---|---|---|---|
| C01 | secp256k1 public key is [d]G | proved | `C01_k1_public_key` | All byte strings; group law proved from the curve equation. |
| C02 | secp256k1 signatures verify | proved | `C02_k1_signatures_verify`, `C02_signing_key_has_public_key` | For every random stream; SHA-512/AES-CTR generator is a parameter. |
| C03 | secp256k1 verification is exactly the ECDSA equation | proved | `C03_k1_verify_is_ecdsa`, `C03_k1_verify_total` | Any 64-byte key denoting a curve point, coordinates reduced or not. |
| C04 | ECDSA signatures are canonical | proved | `C04_k1_signatures_canonical` | Ranges, low s, DER shape of both halves, v. |
| C05 | public key recovery returns the signer's key | proved | `C05_k1_recovery` | The condition on the nonce point's x-coordinate is implied by the canonical form of r. |
| C06 | recovered keys always verify | proved | `C06_k1_recovered_keys_verify` |  |
| C07 | recovery never crashes | partial | `C07_recovery_never_crashes_refuted`, `C07_k1_recovery_no_crash_partial` | False as stated: r = 0 mod N crashes (nil inverse). Proved: no crash for any other r. |
| C08 | recovery works for the zero hash | partial | `C08_zero_hash_recovery_refuted` | False as stated: concrete signature of the zero hash whose recovery fails. |
| C09 | point compression round trip | proved | `C09_k1_compression_round_trip` |  |
| C10 | decompression only returns curve points | partial | `C10_decompression_on_curve_refuted`, `C10_k1_decompression_partial` | False as stated: x with x^3+7 a non-square yields an off-curve point. Proved for all other x. |
| C11 | Point_add is the group operation on secp256k1 | proved | `C11_k1_point_add` | 33, 64 and 65 byte encodings; doubling and inverses included. |
| C12 | Point_mul is scalar multiplication on secp256k1 | proved | `C12_k1_point_mul` | All 32-byte scalars. |
| C13 | Point_mulBaseG_add computes kG+P | proved | `C13_k1_mulBaseG_add` |  |
| C14 | homomorphic key derivation | proved | `C14_k1_homomorphic` | Also the case a+b = 0 mod N. |
| C15 | point APIs reject malformed input without crashing | partial | `C15_point_apis_refuted`, `C15_k1_no_crash_partial` | False as stated: 33-byte points with a wrong tag and short points crash. Proved for well-tagged secp256k1 inputs. |
| C16 | P-256: sums with x=0 are not infinity | partial | `C16_r1_sum_x0_refuted`, `C16_r1_point_add_partial` | False as stated: concrete points whose sum (0,y) is reported as FAILURE. Proved: exact behaviour in all other cases. |
| C17 | P-256 signatures verify and recover | proved | `C17_r1_signatures_verify`, `C17_r1_signatures_canonical`, `C17_r1_recovery` | Contract of crypto/elliptic is an explicit hypothesis (implements), shown satisfiable; recovery needs hash <> 0 mod N (see C08). |
| C18 | curve orders are the true orders | proved | `C18_curve_orders` | Primality by Pocklington certificates; the order of every curve point for the Weierstrass curves, of the base point for ED25519. |
| C19 | unknown identifiers are rejected | partial | `C19_unknown_identifiers_partial`, `C19_unknown_identifiers_refuted` | False as stated: Point_add and Point_mul crash on 33-byte points. Proved for everything else. |
| C20 | illegal private keys are reported as such | partial | `C20_illegal_keys_refuted`, `C20_pasta_refuted`, `C20_bls_refuted`, `C20_illegal_keys_partial` | False as stated: under the BLS identifiers the keys 0 and r are signed with (SUCCESS, constant signature) and all other illegal keys give FAILURE; the errors of packages eddsa and pasta are different values, so ED25519, ED25519_NORMAL, X25519 and PASTA answer FAILURE, and PASTA accepts the zero key. Proved for secp256k1, P-256 and SM2. |
| C21 | SM2 signatures verify | partial | `C21_sm2_signatures_verify_refuted`, `C21_sm2_signatures_verify_partial` | False as stated: a signature with r+s = N is produced and rejected. Proved for every run without a field underflow, with r+s not 0 mod N and sG different from tP. |
| C22 | SM2 signing never crashes | partial | `C22_sm2_sign_never_crashes_refuted`, `C22_sm2_sign_never_crashes_partial` | False as stated: d = N-1 crashes. Proved for every other key, identity, hash and random stream. |
| C23 | SM2 point addition is the group operation | partial | `C23_sm2_point_add_refuted`, `C23_sm2_point_add_partial` | False as stated: P+P is refused, and an underflow gives a wrong sum for a concrete curve point. Proved for distinct points when no underflow happens. |
| C24 | SM2 encryption round trip | partial | `C24_sm2_decryption_partial` | Proved for every run without a field underflow. |
| C25 | SM2 decryption reports tampering | partial | `C25_sm2_decryption_authenticates_refuted` | False: every ciphertext of at least 65 bytes decrypts with SUCCESS. |
| C26 | SM2 decryption never crashes | partial | `C26_sm2_decryption_never_crashes_refuted`, `C26_sm2_decryption_never_crashes_partial` | False as stated: lengths 1 to 64 crash. Proved for all other lengths. |
| C27 | SM2 key agreement agrees | partial | `C27_sm2_key_agreement_partial` | Honest runs without underflow and outside the doubling exponents; length of the key is C28. |
| C28 | SM2 key agreement honours the key length | partial | `C28_sm2_agreed_key_length_refuted`, `C28_sm2_agreed_key_length_partial` | False as stated: keylen 8192 yields an empty key with SUCCESS. Proved for keylen < 8192, both roles. |
| C29 | SM2 recovery recovers | partial | `C29_sm2_recovery_refuted` | False: two keys with the same signature. |
| C30 | SM2 field arithmetic is exact | partial | `C30_sm2_field_partial`, `C30_sm2_mul_refuted`, `C30_sm2_square_refuted` | False as stated: an underflow in the degree reduction makes some in-range products wrong. Addition, subtraction and conversions proved exact for all operands in range; multiplication and squaring proved exact whenever no elimination step underflows. |
| C31 | SM3 is the standard function | proved | `C31_sm3_standard` |  |
| C32 | streaming equals one-shot | proved | `C32_streaming` | SM3, BLAKE-224/256/384/512 with and without salt, BLAKE2s with and without key, Keccak-256/512 and SHA3-224/256/384/512. |
| C33 | Sum does not disturb the running hash | partial | `C33_sum_keeps_state_refuted`, `C33_sum_keeps_state_partial` | False for SM3: Sum absorbs its argument and changes the state. Proved for all other hashes over every history of Write, Sum and Reset. |
| C34 | BLAKE-256/512 match their specification | proved | `C34_blake_standard`, `C34_blake_salted` |  |
| C35 | Keccak and SHA3 match FIPS 202 | proved | `C35_sha3_standard`, `C35_sha3_other`, `C35_shake_standard` | The Go permutation (keccakf.go); C83 proves the amd64 assembly version equal to it. |
| C36 | BLAKE2s matches RFC 7693 | proved | `C36_blake2s_standard`, `C36_hash_blake2s` | The repository has the Go compression function only. |
| C37 | composite hashes and HMAC compose as documented | proved | `C37_composites`, `C37_hmac`, `C37_unknown` | SHA-2, RIPEMD-160, MD4/5, BLAKE2b are parameters; the repository's own hashes inside the composites are the specified ones. |
| C38 | Ed25519 (standard) signatures verify | proved | `C38_ed25519_normal` | Public key and signature also equal those of RFC 8032; SHA-512 is a parameter of which only the output length is assumed. |
| C39 | Ed25519 (raw scalar) signatures verify | partial | `C39_ed25519_raw_refuted`, `C39_ed25519_raw_partial`, `C39_ed25519_clamped` | False as stated: Signature clamps the scalar, GenPubkey does not. Exact condition proved for every key below 2^255; clamped keys verify. |
| C40 | Ed25519 GenPubkey multiplies by the given scalar | partial | `C40_ed25519_public_key_refuted`, `C40_ed25519_public_key_partial` | False as stated: 2^256-1 is taken as -1. Proved for every scalar below 2^255. |
| C41 | X25519 signatures verify | partial | `C41_x25519_signatures_verify_refuted`, `C41_x25519_signatures_verify_partial` | False as stated: the empty message is signed and rejected. Proved for every non-empty message and every key below 2^255 that is not a multiple of L. |
| C42 | Edwards/Montgomery conversion round trip | partial | `C42_conversion_partial`, `C42_conversion_refuted` | Proved with the exceptions u = -1 and y = 1, at which the round trip fails. |
| C43 | GenPubkey does not modify the private key | partial | `C43_inputs_unchanged_refuted`, `C43_inputs_unchanged_partial`, `C43_answer_partial` | False as stated: Verify for BLS_AUG appends the message to the public-key slice, so spare capacity behind the key is overwritten (a signature stored there is replaced by the message and the answer changes). Unchanged whenever the spare capacity is smaller than the message. The clamping of CURVE25519_SHA256 keys is the other case. The remaining entry points are modelled as functions of slice contents. |
| C44 | Ed25519 field and scalar arithmetic is exact | proved | `C44_field_arithmetic`, `C44_scalar_arithmetic` | int32/int64 wrap-around is in the model; no overflow is part of the proof. |
| C45 | Pasta field arithmetic is exact | proved | `C45_pasta_fields`, `C45_pasta_inverse_sqrt` | All Montgomery field functions of both Pasta fields, inversion and square roots. |
| C46 | Pasta signatures verify | partial | `C46_pasta_sign`, `C46_pasta_roundtrip_partial` | Signatures equal the Mina scheme for every key, nonce and message of reduced field elements; they verify unless the x-coordinate of 2sG equals r, when the point addition can meet two representations of the same point and answers infinity. |
| C47 | Pasta verification binds to the public key | partial | `C47_pasta_binding_refuted`, `C47_pasta_verify_partial` | False for the 65-byte form (and 64 zero bytes): one fixed signature verifies under every such key. Proved for 64- and 33-byte encodings of curve points: soundness for r not 0 mod p, completeness except when sG = -eP. Off-curve 64-byte keys are not covered. |
| C48 | Pasta point encodings agree | partial | `C48_pasta_encodings_refuted`, `C48_pasta_encodings_partial` | False for Point_mulBaseG_add and Verify; holds for Point_add and Point_mul. |
| C49 | Pasta decompression validates its input | partial | `C49_pasta_decompress_refuted`, `C49_pasta_decompress_partial`, `C49_pasta_compress_roundtrip` | False: every prefix and every x is answered. The exact answer is proved for all inputs, and valid encodings round-trip. |
| C50 | Pasta negation negates | partial | `C50_pasta_negate_refuted` | False: AffineNegate returns its argument. |
| C51 | Poseidon absorbs its whole input | proved | `C51_poseidon` | For reduced field elements; messages come from JSON and may hold unreduced words, which the theorem does not cover. |
| C52 | BLS hash-to-field expansion is RFC 9380 | proved | `C52_expand`, `C52_empty`, `C52_hash_total` | Against expand_message_xmd of RFC 9380 written in SpecBlsHash.v, for every hash function. Output length 0 panics. G2 HashToCurve returns a point for every message and tag. |
| C53 | BLS schemes are domain separated | proved | `C53_separated`, `C53_signed_point` | For every hash-to-curve function: a NUL call consults it at (message, NUL tag) only, an AUG call at (public key then message, AUG tag) only. append is modelled as concatenation (see C43). |
| C54 | BLS verification never crashes | partial | `C54_never_crashes_refuted`, `C54_crash_set`, `C54_never_crashes_partial` | False as stated: a 48-byte public key that does not decode together with a signature that decodes is a nil dereference. C54_crash_set characterises exactly the inputs that crash. |
| C55 | BLS12-381 base field arithmetic is exact | proved | `C55_portable_field`, `C55_forms` | Portable arithmetic (arithmetic_fallback.go) modelled line by line; add, sub, neg, double, mul exact modulo p for all reduced operands. Squaring is C72. |
| C56 | off-curve public keys are rejected | partial | `C56_off_curve_keys_rejected_refuted` | False: concrete off-curve key accepted. |
| C57 | P-256 keys, verification, compression and point functions | proved | `C57_r1_public_key`, `C57_r1_verify_is_ecdsa`, `C57_r1_compression_round_trip`, `C57_r1_point_mul`, `C57_r1_mulBaseG_add`, `C57_r1_homomorphic` |  |
| C58 | SM2 point multiplication is the group operation | partial | `C58_sm2_point_mul_refuted`, `C58_sm2_point_mul_partial` | False as stated: an underflow makes 2P wrong for a concrete P. Proved when no underflow happens. |
| C59 | SM2 verification is exactly the SM2 equation | partial | `C59_sm2_verify_is_sm2_partial` | Runs without underflow, sG different from tP. |
| C60 | SM2 public key is [d]G | partial | `C60_sm2_public_key_partial` | Illegal keys: all byte strings. Legal keys: runs without underflow. |
| C61 | SM2 compression round trip | proved | `C61_sm2_compression_round_trip` |  |
| C62 | a cloned SHAKE continues like the original | partial | `C62_shake_clone_refuted`, `C62_shake_clone_partial` | False for SHAKE256: the clone panics after one byte is read. Proved for SHAKE128 and for clones taken before reading. |
| C63 | Hash never crashes and honours the digest length | partial | `C63_hash_never_crashes_refuted`, `C63_hash_length_refuted`, `C63_hash_never_crashes_partial` | False as stated: BLAKE2s with length 33 panics, length 288 returns 32 bytes. Proved for all other types and lengths. |
| C64 | Ed25519 Verify accepts exactly the signatures of the equation | proved | `C64_ed25519_verify` |  |
| C65 | Ed25519 signatures cannot be altered | partial | `C65_ed25519_malleable_refuted` | False: S + L is accepted as well. |
| C66 | Ed25519 point addition | partial | `C66_ed25519_points_partial` | Points that decode; scalars below 2^255. Undecodable points are not rejected by the code; what it computes for them is not characterised. |
| C67 | SM2 encryption is the standard's | partial | `C67_sm2_encryption_standard_partial` | For runs without an underflow in sm2_stdReduceDegree (C30). |
| C68 | SM2 key agreement is the standard's | partial | `C68_sm2_key_agreement_standard_partial` | For runs without an underflow in sm2_stdReduceDegree (C30), identities of 1..8191 bytes, and initiator keys in general position (ka_regular). |
| C69 | Pasta public keys | proved | `C69_pasta_keygen` |  |
| C70 | Pasta point operations | proved | `C70_pasta_points` | 65-byte arguments excepted for Point_mulBaseG_add (see C48). |
| C71 | Pasta functions always return | proved | `C71_pasta_total` | The nonce loop is bounded by fuel; C46_pasta_sign says when it is exhausted. |
| C72 | BLS12-381 squaring is exact | partial | `C72_portable_square_refuted`, `C72_portable_square_partial`, `C72_portable_sq_ok_partial` | The claim is false of the portable square: a carry is lost; a counterexample is proved. It is right for elements whose Montgomery form has words below 2^63 (partial). On amd64 square is mul (C73). |
| C73 | BLS12-381 assembly arithmetic is exact | partial | `C73_amd64_linear_partial`, `C73_amd64_deterministic`, `C73_amd64_mulADX_refuted`, `C73_amd64_mulNoADX_refuted` | Addition, subtraction, doubling and negation proved; both multiplications are wrong on rare operands: ADX drops an overflow-chain carry, NoADX uses a clobbered carry flag when a quotient digit is 1. Counterexamples proved for every entry state. |
| C74 | BLS12-381 assembly keeps inside its stack frame | partial | `C74_frames_partial`, `C74_frames_refuted` | All routines but mulNoADX and mulAssignNoADX stay in the frame; those two use 16(SP) in a frame of 16 bytes. |
| C75 | BLS verification depends on the message | partial | `C75_identity_refuted` | False: public key c000.. and signature c000.. verify every message under both identifiers, for every field build and pairing. |
| C76 | BLS signing binds the message | partial | `C76_untagged_refuted` | False: without one of the two tags in front, Sign returns c000.. for every key and message. Through Signature the tag is always present (C53_signed_point). |
| C77 | CURVE25519_SHA256 public keys are X25519 keys | partial | `C77_csha_pub_partial`, `C77_csha_pub_length` | All 32-byte keys; the one gap is pack: when u(kB) is one of the 19 largest residues the bytes may be those of u - p modulo 2^256, depending on the limbs. |
| C78 | CURVE25519_SHA256 leaves the private key alone | partial | `C78_csha_key_unchanged_refuted`, `C78_csha_key_after`, `C78_csha_sign_key_after`, `C78_csha_key_unchanged_iff` | False: both functions overwrite the caller's key with its clamped form; unchanged exactly for keys that are clamped already. |
| C79 | CURVE25519_SHA256 accepts canonical encodings only | proved | `C79_csha_verify_canonical`, `C79_csha_verify_order` | Both bounds, the lengths and the non-empty message. |
| C80 | CURVE25519_SHA256 signatures are EC-KCDSA signatures | partial | `C80_csha_sign_total`, `C80_csha_sign_partial` | Termination and range for all keys; the formula for all keys but the one that clamps to 5L - 1, and nonces x whose u(xB) is not one of the 19 largest residues (pack). |
| C81 | CURVE25519_SHA256 verification decides the verification equation | partial | `C81_csha_verify_partial` | All points of the prime-order subgroup except the identity and +-B (public key 9); u(vA + hB) not one of the 19 largest residues. Public keys on the twist or outside the subgroup are not covered. |
| C82 | CURVE25519_SHA256 signatures verify | partial | `C82_csha_empty_refuted`, `C82_csha_roundtrip_partial` | False for the empty message: Signature signs it, Verify refuses it. True for non-empty messages with the exceptions of C80. |
| C83 | Keccak assembly computes the Keccak permutation | proved | `C83_keccak_amd64`, `C83_keccak_amd64_memory` | The 24 rounds are kept as the assembly expands them; instruction semantics in ModelKeccakX.v. |
| C84 | A BLS signature has one form | proved | `C84_signature_forms`, `C84_one_form` | Portable build: decoder sound, complete and injective, including the square root in F_p(i) and the subgroup check; every hash and every pairing. |
| C85 | BLS aggregation adds points | partial | `C85_refused`, `C85_sum_partial`, `C85_sum_exact_partial` | Which lists fail: complete for the portable build. The value: for the portable build if the two squarings of the last inversion are right (C72: not always); without condition for a build that squares correctly. |
| C86 | BLS verification accepts one signature per key and message | partial | `C86_accepted_partial`, `C86_accepted_exact_partial` | Relative to a pairing: bilinear, and the generator separates points (hypotheses; that the engine decides products of the ate pairing is C93, that this pairing is bilinear is not proved). Key by its decoded point in the portable build, by its encoding in a build that squares correctly. |
| C87 | BLS signatures verify, alone and aggregated | partial | `C87_signature_partial`, `C87_roundtrip_partial`, `C87_multisig_partial` | Round trip and multi-signature for builds that square correctly, relative to a pairing and to kyber's public key; the value of the signature for the portable build if two squarings are right. |
| C88 | BLS hash_to_field follows RFC 9380 | proved | `C88_hash_to_field` | Every build exact in all routines but squaring, so the portable one; the hash is any function with 32 bytes of output. |
| C89 | The non-uniform encoding to G2 follows RFC 9380 | partial | `C89_map_total`, `C89_encode_partial`, `C89_zero_refuted` | Builds that square correctly; every message whose hashed element is not 0. For 0 the code takes -B/(ZA) where the RFC has B/(ZA): another point, still of the subgroup (refuted theorem). |
| C90 | Hashing to G2 follows RFC 9380 | partial | `C90_hash_partial` | Builds that square correctly; both elements not 0 and not mapped to one point (for equal points the code doubles with the formula of y^2 = x^3 + b, wrong on the isogenous curve). The code takes the sum before the isogeny; the isogeny is proved a homomorphism, so the theorem states the sum of RFC 9380 section 3. |
| C91 | BLS signatures are those of the IETF suites | partial | `C91_roundtrip_partial` | As C90, for a hash that is not infinity, relative to a pairing and to kyber's public key (hypotheses). |
| C92 | BLS target group: arithmetic and encoding | partial | `C92_field`, `C92_powers`, `C92_square_refuted`, `C92_inverse_exact_partial`, `C92_bytes` | All but Inverse for every build exact in all routines but squaring, so the portable one; Inverse for builds that square correctly. Square of an element outside the subgroup is another number (refuted: 2 goes to 8). Exp for exponents that are not negative (any integer: C97). |
| C93 | The pairing engine computes the optimal ate pairing | partial | `C93_result_exact_partial`, `C93_decides_exact_partial`, `C93_valid_exact_partial` | Builds that square correctly; affine points, the second in G2. The specification is the ate pairing with the standard field and the line through affine points; its bilinearity and non-degeneracy are not proved. |
| C94 | Pairing products: concatenation, order, cancellation | partial | `C94_append_exact_partial`, `C94_order_exact_partial`, `C94_negated_exact_partial` | Builds that square correctly. Cancellation for the first argument; bilinearity in general is not proved. |
| C95 | BLS verification is the pairing equation | partial | `C95_verify_exact_partial` | Builds that square correctly; no hypothesis on the pairing. That the equation singles out one signature needs bilinearity (C86). |
| C96 | SHA-3 input and output do not depend on the platform | proved | `C96_sha3_input`, `C96_sha3_output` | Little-endian loads of 64-bit words; the five block lengths the package uses. |
| C97 | BLS target group: powers by any integer | partial | `C97_exp`, `C97_exp_partial`, `C97_negative_partial`, `C97_negative_refuted` | The exact result for every integer: the power by s mod 2^BitLen(s), so the claim holds for s >= 0 and fails for s < 0: Exp by -1 gives the element back, which is not its inverse unless it is one. C97_negative_refuted shows that GT has an element other than one, by counting the roots of a polynomial, so the claim is false for negative s. |
| C98 | BLS target group: cyclic of order r | proved | `C98_exponents`, `C98_generates`, `C98_strings` | For every build exact in all routines but squaring, so the portable one. That an element other than one exists is C98_met (roots of a polynomial are counted). |
| C99 | BLS: each public key belongs to one secret key | partial | `C99_one_key_partial`, `C99_count_partial`, `C99_verify_partial` | Builds that square correctly (in the portable build a square root may be missed, C72). Verify relative to a pairing, as C86, and for messages hashed to a point of G2. |
| C100 | BLS: one public key for each signature of a message | partial | `C100_signatures`, `C100_one_key_partial` | The number of signatures for the portable build, without condition. One key per signature: builds that square correctly, relative to a pairing, as C86, and for messages hashed to a point of G2 other than infinity. |
| C101 | Each curve point is the public key of exactly one private key | partial | `C101_k1_one_key`, `C101_r1_one_key`, `C101_pasta_partial`, `C101_pasta_refuted` | Proved for secp256k1 and for secp256r1 (relative to the contract of elliptic.P256). False for PASTA: keys end at 2^254, below the order, so the negative of the generator has no key; no point has two keys (partial). |
| C102 | ECDSA: two to four public keys for each signature | proved | `C102_k1_four_keys`, `C102_r1_four_keys`, `C102_k1_second_key`, `C102_r1_second_key` | secp256r1 relative to the contract of elliptic.P256. Keys are counted as points; on secp256k1 the strings of one point whose coordinates differ by p count once. The second key may be the point at infinity (64 zero bytes). |
| C103 | ECDSA signatures cannot be altered | partial | `C103_k1_altered_refuted`, `C103_r1_altered_refuted`, `C103_k1_partial`, `C103_r1_partial` | False: with s also n - s is accepted (Verify does not ask for the lower half, although Signature returns only such s, C04). Proved: at most four second halves are accepted. secp256r1 relative to the contract of elliptic.P256. |

## 6. Trusted base

* Coq's kernel, including `vm_compute` conversion (`coqchk` re-checks the compiled
  files without the virtual machine). No kernel check is switched off.
* The transcription of Go and assembly into the `Model*` files, and the semantics
  stated in section 2.
* The `Spec*` files, as readings of the standards.

`Print Assumptions` reports for the theorems named in the manifest one of two sets.

*Closed under the global context* (no axiom at all):

`C03_k1_verify_total`, `C06_k1_recovered_keys_verify`, `C15_point_apis_refuted`, `C16_r1_point_add_partial`, `C17_r1_signatures_canonical`, `C17_r1_recovery`, `C19_unknown_identifiers_partial`, `C19_unknown_identifiers_refuted`, `C30_sm2_field_partial`, `C30_sm2_mul_refuted`, `C30_sm2_square_refuted`, `C57_r1_public_key`, `C57_r1_verify_is_ecdsa`, `C57_r1_compression_round_trip`, `C57_r1_point_mul`, `C57_r1_mulBaseG_add`, `C28_sm2_agreed_key_length_partial`, `C31_sm3_standard`, `C32_streaming`, `C33_sum_keeps_state_refuted`, `C33_sum_keeps_state_partial`, `C34_blake_standard`, `C34_blake_salted`, `C35_sha3_standard`, `C35_sha3_other`, `C35_shake_standard`, `C36_blake2s_standard`, `C36_hash_blake2s`, `C37_composites`, `C37_hmac`, `C37_unknown`, `C62_shake_clone_refuted`, `C62_shake_clone_partial`, `C63_hash_never_crashes_refuted`, `C63_hash_length_refuted`, `C63_hash_never_crashes_partial`, `C20_illegal_keys_refuted`, `C20_bls_refuted`, `C20_illegal_keys_partial`, `C44_scalar_arithmetic`, `C48_pasta_encodings_partial`, `C55_portable_field`, `C55_forms`, `C72_portable_square_refuted`, `C72_portable_square_partial`, `C72_portable_sq_ok_partial`, `C73_amd64_linear_partial`, `C73_amd64_deterministic`, `C73_amd64_mulADX_refuted`, `C73_amd64_mulNoADX_refuted`, `C74_frames_partial`, `C74_frames_refuted`, `C52_expand`, `C52_empty`, `C52_hash_total`, `C53_separated`, `C53_signed_point`, `C54_never_crashes_refuted`, `C54_crash_set`, `C54_never_crashes_partial`, `C75_identity_refuted`, `C76_untagged_refuted`, `C43_inputs_unchanged_refuted`, `C43_inputs_unchanged_partial`, `C43_answer_partial`, `C77_csha_pub_length`, `C78_csha_key_unchanged_refuted`, `C78_csha_key_after`, `C78_csha_sign_key_after`, `C78_csha_key_unchanged_iff`, `C79_csha_verify_canonical`, `C79_csha_verify_order`, `C83_keccak_amd64`, `C83_keccak_amd64_memory`, `C88_hash_to_field`, `C96_sha3_input`, `C96_sha3_output`

*Primitive 63-bit integers of the standard library*: the types and operations
`PrimInt63.add`, `PrimInt63.eqb`, `PrimInt63.int`, `PrimInt63.land`, `PrimInt63.leb`, `PrimInt63.lor`, `PrimInt63.lsl`, `PrimInt63.lsr`, `PrimInt63.ltb`, `PrimInt63.mul`, `PrimInt63.sub` and their specifications
`Uint63.add_spec`, `Uint63.eqb_correct`, `Uint63.eqb_refl`, `Uint63.land_spec`, `Uint63.leb_spec`, `Uint63.lor_spec`, `Uint63.lsl_spec`, `Uint63.lsr_spec`, `Uint63.ltb_spec`, `Uint63.mul_spec`, `Uint63.of_to_Z`, `Uint63.sub_spec` (module Coq.Numbers.Cyclic.Int63.Uint63). They enter through `Mont63`, which is
used to check primality certificates and orders of points:

`C01_k1_public_key`, `C02_k1_signatures_verify`, `C02_signing_key_has_public_key`, `C03_k1_verify_is_ecdsa`, `C04_k1_signatures_canonical`, `C05_k1_recovery`, `C07_recovery_never_crashes_refuted`, `C07_k1_recovery_no_crash_partial`, `C08_zero_hash_recovery_refuted`, `C09_k1_compression_round_trip`, `C10_decompression_on_curve_refuted`, `C10_k1_decompression_partial`, `C11_k1_point_add`, `C12_k1_point_mul`, `C13_k1_mulBaseG_add`, `C14_k1_homomorphic`, `C15_k1_no_crash_partial`, `C16_r1_sum_x0_refuted`, `C17_r1_signatures_verify`, `C18_curve_orders`, `C57_r1_homomorphic`, `C56_off_curve_keys_rejected_refuted`, `C21_sm2_signatures_verify_refuted`, `C21_sm2_signatures_verify_partial`, `C22_sm2_sign_never_crashes_refuted`, `C22_sm2_sign_never_crashes_partial`, `C23_sm2_point_add_refuted`, `C23_sm2_point_add_partial`, `C24_sm2_decryption_partial`, `C25_sm2_decryption_authenticates_refuted`, `C26_sm2_decryption_never_crashes_refuted`, `C26_sm2_decryption_never_crashes_partial`, `C27_sm2_key_agreement_partial`, `C28_sm2_agreed_key_length_refuted`, `C29_sm2_recovery_refuted`, `C58_sm2_point_mul_refuted`, `C58_sm2_point_mul_partial`, `C59_sm2_verify_is_sm2_partial`, `C60_sm2_public_key_partial`, `C61_sm2_compression_round_trip`, `C20_pasta_refuted`, `C38_ed25519_normal`, `C39_ed25519_raw_refuted`, `C39_ed25519_raw_partial`, `C39_ed25519_clamped`, `C40_ed25519_public_key_refuted`, `C40_ed25519_public_key_partial`, `C41_x25519_signatures_verify_refuted`, `C41_x25519_signatures_verify_partial`, `C42_conversion_partial`, `C42_conversion_refuted`, `C44_field_arithmetic`, `C64_ed25519_verify`, `C65_ed25519_malleable_refuted`, `C66_ed25519_points_partial`, `C67_sm2_encryption_standard_partial`, `C68_sm2_key_agreement_standard_partial`, `C45_pasta_fields`, `C45_pasta_inverse_sqrt`, `C46_pasta_sign`, `C46_pasta_roundtrip_partial`, `C47_pasta_binding_refuted`, `C47_pasta_verify_partial`, `C48_pasta_encodings_refuted`, `C49_pasta_decompress_refuted`, `C49_pasta_decompress_partial`, `C49_pasta_compress_roundtrip`, `C50_pasta_negate_refuted`, `C51_poseidon`, `C69_pasta_keygen`, `C70_pasta_points`, `C71_pasta_total`, `C77_csha_pub_partial`, `C80_csha_sign_total`, `C80_csha_sign_partial`, `C81_csha_verify_partial`, `C82_csha_empty_refuted`, `C82_csha_roundtrip_partial`, `C84_signature_forms`, `C84_one_form`, `C85_refused`, `C85_sum_partial`, `C85_sum_exact_partial`, `C86_accepted_partial`, `C86_accepted_exact_partial`, `C87_signature_partial`, `C87_roundtrip_partial`, `C87_multisig_partial`, `C89_map_total`, `C89_encode_partial`, `C89_zero_refuted`, `C90_hash_partial`, `C91_roundtrip_partial`, `C92_field`, `C92_powers`, `C92_square_refuted`, `C92_inverse_exact_partial`, `C92_bytes`, `C93_result_exact_partial`, `C93_decides_exact_partial`, `C93_valid_exact_partial`, `C94_append_exact_partial`, `C94_order_exact_partial`, `C94_negated_exact_partial`, `C95_verify_exact_partial`, `C97_exp`, `C97_exp_partial`, `C97_negative_partial`, `C97_negative_refuted`, `C98_exponents`, `C98_generates`, `C98_strings`, `C99_one_key_partial`, `C99_count_partial`, `C99_verify_partial`, `C100_signatures`, `C100_one_key_partial`, `C101_k1_one_key`, `C101_r1_one_key`, `C101_pasta_partial`, `C101_pasta_refuted`, `C102_k1_four_keys`, `C102_r1_four_keys`, `C102_k1_second_key`, `C102_r1_second_key`, `C103_k1_altered_refuted`, `C103_r1_altered_refuted`, `C103_k1_partial`, `C103_r1_partial`

No other axiom is used by any theorem. Standard-library modules that the build loads
may declare further axioms; no theorem depends on them.
