{
 "claims": [
  {
   "property": "C01",
   "status": "proved",
   "theorems": [
    "C01_k1_public_key"
   ],
   "note": "All byte strings; group law proved from the curve equation."
  },
  {
   "property": "C02",
   "status": "proved",
   "theorems": [
    "C02_k1_signatures_verify",
    "C02_signing_key_has_public_key"
   ],
   "note": "For every random stream; SHA-512/AES-CTR generator is a parameter."
  },
  {
   "property": "C03",
   "status": "proved",
   "theorems": [
    "C03_k1_verify_is_ecdsa",
    "C03_k1_verify_total"
   ],
   "note": "Any 64-byte key denoting a curve point, coordinates reduced or not."
  },
  {
   "property": "C04",
   "status": "proved",
   "theorems": [
    "C04_k1_signatures_canonical"
   ],
   "note": "Ranges, low s, DER shape of both halves, v."
  },
  {
   "property": "C05",
   "status": "proved",
   "theorems": [
    "C05_k1_recovery"
   ],
   "note": "The condition on the nonce point's x-coordinate is implied by the canonical form of r."
  },
  {
   "property": "C06",
   "status": "proved",
   "theorems": [
    "C06_k1_recovered_keys_verify"
   ],
   "note": ""
  },
  {
   "property": "C07",
   "status": "partial",
   "theorems": [
    "C07_recovery_never_crashes_refuted",
    "C07_k1_recovery_no_crash_partial"
   ],
   "note": "False as stated: r = 0 mod N crashes (nil inverse). Proved: no crash for any other r."
  },
  {
   "property": "C08",
   "status": "partial",
   "theorems": [
    "C08_zero_hash_recovery_refuted"
   ],
   "note": "False as stated: concrete signature of the zero hash whose recovery fails."
  },
  {
   "property": "C09",
   "status": "proved",
   "theorems": [
    "C09_k1_compression_round_trip"
   ],
   "note": ""
  },
  {
   "property": "C10",
   "status": "partial",
   "theorems": [
    "C10_decompression_on_curve_refuted",
    "C10_k1_decompression_partial"
   ],
   "note": "False as stated: x with x^3+7 a non-square yields an off-curve point. Proved for all other x."
  },
  {
   "property": "C11",
   "status": "proved",
   "theorems": [
    "C11_k1_point_add"
   ],
   "note": "33, 64 and 65 byte encodings; doubling and inverses included."
  },
  {
   "property": "C12",
   "status": "proved",
   "theorems": [
    "C12_k1_point_mul"
   ],
   "note": "All 32-byte scalars."
  },
  {
   "property": "C13",
   "status": "proved",
   "theorems": [
    "C13_k1_mulBaseG_add"
   ],
   "note": ""
  },
  {
   "property": "C14",
   "status": "proved",
   "theorems": [
    "C14_k1_homomorphic"
   ],
   "note": "Also the case a+b = 0 mod N."
  },
  {
   "property": "C15",
   "status": "partial",
   "theorems": [
    "C15_point_apis_refuted",
    "C15_k1_no_crash_partial"
   ],
   "note": "False as stated: 33-byte points with a wrong tag and short points crash. Proved for well-tagged secp256k1 inputs."
  },
  {
   "property": "C16",
   "status": "partial",
   "theorems": [
    "C16_r1_sum_x0_refuted",
    "C16_r1_point_add_partial"
   ],
   "note": "False as stated: concrete points whose sum (0,y) is reported as FAILURE. Proved: exact behaviour in all other cases."
  },
  {
   "property": "C17",
   "status": "proved",
   "theorems": [
    "C17_r1_signatures_verify",
    "C17_r1_signatures_canonical",
    "C17_r1_recovery"
   ],
   "note": "Contract of crypto/elliptic is an explicit hypothesis (implements), shown satisfiable; recovery needs hash <> 0 mod N (see C08)."
  },
  {
   "property": "C18",
   "status": "proved",
   "theorems": [
    "C18_curve_orders"
   ],
   "note": "Primality by Pocklington certificates; the order of every curve point for the Weierstrass curves, of the base point for ED25519."
  },
  {
   "property": "C19",
   "status": "partial",
   "theorems": [
    "C19_unknown_identifiers_partial",
    "C19_unknown_identifiers_refuted"
   ],
   "note": "False as stated: Point_add and Point_mul crash on 33-byte points. Proved for everything else."
  },
  {
   "property": "C30",
   "status": "partial",
   "theorems": [
    "C30_sm2_field_partial",
    "C30_sm2_mul_refuted",
    "C30_sm2_square_refuted"
   ],
   "note": "False as stated: an underflow in the degree reduction makes some in-range products wrong. Addition, subtraction and conversions proved exact for all operands in range; multiplication and squaring proved exact whenever no elimination step underflows."
  },
  {
   "property": "C57",
   "status": "proved",
   "theorems": [
    "C57_r1_public_key",
    "C57_r1_verify_is_ecdsa",
    "C57_r1_compression_round_trip",
    "C57_r1_point_mul",
    "C57_r1_mulBaseG_add",
    "C57_r1_homomorphic"
   ],
   "note": ""
  },
  {
   "property": "C56",
   "status": "partial",
   "theorems": [
    "C56_off_curve_keys_rejected_refuted"
   ],
   "note": "False: concrete off-curve key accepted."
  },
  {
   "property": "C21",
   "status": "partial",
   "theorems": [
    "C21_sm2_signatures_verify_refuted",
    "C21_sm2_signatures_verify_partial"
   ],
   "note": "False as stated: a signature with r+s = N is produced and rejected. Proved for every run without a field underflow, with r+s not 0 mod N and sG different from tP."
  },
  {
   "property": "C22",
   "status": "partial",
   "theorems": [
    "C22_sm2_sign_never_crashes_refuted",
    "C22_sm2_sign_never_crashes_partial"
   ],
   "note": "False as stated: d = N-1 crashes. Proved for every other key, identity, hash and random stream."
  },
  {
   "property": "C23",
   "status": "partial",
   "theorems": [
    "C23_sm2_point_add_refuted",
    "C23_sm2_point_add_partial"
   ],
   "note": "False as stated: P+P is refused, and an underflow gives a wrong sum for a concrete curve point. Proved for distinct points when no underflow happens."
  },
  {
   "property": "C24",
   "status": "partial",
   "theorems": [
    "C24_sm2_decryption_partial"
   ],
   "note": "Proved for every run without a field underflow."
  },
  {
   "property": "C25",
   "status": "partial",
   "theorems": [
    "C25_sm2_decryption_authenticates_refuted"
   ],
   "note": "False: every ciphertext of at least 65 bytes decrypts with SUCCESS."
  },
  {
   "property": "C26",
   "status": "partial",
   "theorems": [
    "C26_sm2_decryption_never_crashes_refuted",
    "C26_sm2_decryption_never_crashes_partial"
   ],
   "note": "False as stated: lengths 1 to 64 crash. Proved for all other lengths."
  },
  {
   "property": "C27",
   "status": "partial",
   "theorems": [
    "C27_sm2_key_agreement_partial"
   ],
   "note": "Honest runs without underflow and outside the doubling exponents; length of the key is C28."
  },
  {
   "property": "C28",
   "status": "partial",
   "theorems": [
    "C28_sm2_agreed_key_length_refuted",
    "C28_sm2_agreed_key_length_partial"
   ],
   "note": "False as stated: keylen 8192 yields an empty key with SUCCESS. Proved for keylen < 8192, both roles."
  },
  {
   "property": "C29",
   "status": "partial",
   "theorems": [
    "C29_sm2_recovery_refuted"
   ],
   "note": "False: two keys with the same signature."
  },
  {
   "property": "C58",
   "status": "partial",
   "theorems": [
    "C58_sm2_point_mul_refuted",
    "C58_sm2_point_mul_partial"
   ],
   "note": "False as stated: an underflow makes 2P wrong for a concrete P. Proved when no underflow happens."
  },
  {
   "property": "C59",
   "status": "partial",
   "theorems": [
    "C59_sm2_verify_is_sm2_partial"
   ],
   "note": "Runs without underflow, sG different from tP."
  },
  {
   "property": "C60",
   "status": "partial",
   "theorems": [
    "C60_sm2_public_key_partial"
   ],
   "note": "Illegal keys: all byte strings. Legal keys: runs without underflow."
  },
  {
   "property": "C61",
   "status": "proved",
   "theorems": [
    "C61_sm2_compression_round_trip"
   ],
   "note": ""
  },
  {
   "property": "C31",
   "status": "proved",
   "theorems": [
    "C31_sm3_standard"
   ],
   "note": ""
  },
  {
   "property": "C32",
   "status": "proved",
   "theorems": [
    "C32_streaming"
   ],
   "note": "SM3, BLAKE-224/256/384/512 with and without salt, BLAKE2s with and without key, Keccak-256/512 and SHA3-224/256/384/512."
  },
  {
   "property": "C33",
   "status": "partial",
   "theorems": [
    "C33_sum_keeps_state_refuted",
    "C33_sum_keeps_state_partial"
   ],
   "note": "False for SM3: Sum absorbs its argument and changes the state. Proved for all other hashes over every history of Write, Sum and Reset."
  },
  {
   "property": "C34",
   "status": "proved",
   "theorems": [
    "C34_blake_standard",
    "C34_blake_salted"
   ],
   "note": ""
  },
  {
   "property": "C35",
   "status": "proved",
   "theorems": [
    "C35_sha3_standard",
    "C35_sha3_other",
    "C35_shake_standard"
   ],
   "note": "The Go permutation (keccakf.go); C83 proves the amd64 assembly version equal to it."
  },
  {
   "property": "C36",
   "status": "proved",
   "theorems": [
    "C36_blake2s_standard",
    "C36_hash_blake2s"
   ],
   "note": "The repository has the Go compression function only."
  },
  {
   "property": "C37",
   "status": "proved",
   "theorems": [
    "C37_composites",
    "C37_hmac",
    "C37_unknown"
   ],
   "note": "SHA-2, RIPEMD-160, MD4/5, BLAKE2b are parameters; the repository's own hashes inside the composites are the specified ones."
  },
  {
   "property": "C62",
   "status": "partial",
   "theorems": [
    "C62_shake_clone_refuted",
    "C62_shake_clone_partial"
   ],
   "note": "False for SHAKE256: the clone panics after one byte is read. Proved for SHAKE128 and for clones taken before reading."
  },
  {
   "property": "C63",
   "status": "partial",
   "theorems": [
    "C63_hash_never_crashes_refuted",
    "C63_hash_length_refuted",
    "C63_hash_never_crashes_partial"
   ],
   "note": "False as stated: BLAKE2s with length 33 panics, length 288 returns 32 bytes. Proved for all other types and lengths."
  },
  {
   "property": "C20",
   "status": "partial",
   "theorems": [
    "C20_illegal_keys_refuted",
    "C20_pasta_refuted",
    "C20_bls_refuted",
    "C20_illegal_keys_partial"
   ],
   "note": "False as stated: under the BLS identifiers the keys 0 and r are signed with (SUCCESS, constant signature) and all other illegal keys give FAILURE; the errors of packages eddsa and pasta are different values, so ED25519, ED25519_NORMAL, X25519 and PASTA answer FAILURE, and PASTA accepts the zero key. Proved for secp256k1, P-256 and SM2."
  },
  {
   "property": "C38",
   "status": "proved",
   "theorems": [
    "C38_ed25519_normal"
   ],
   "note": "Public key and signature also equal those of RFC 8032; SHA-512 is a parameter of which only the output length is assumed."
  },
  {
   "property": "C39",
   "status": "partial",
   "theorems": [
    "C39_ed25519_raw_refuted",
    "C39_ed25519_raw_partial",
    "C39_ed25519_clamped"
   ],
   "note": "False as stated: Signature clamps the scalar, GenPubkey does not. Exact condition proved for every key below 2^255; clamped keys verify."
  },
  {
   "property": "C40",
   "status": "partial",
   "theorems": [
    "C40_ed25519_public_key_refuted",
    "C40_ed25519_public_key_partial"
   ],
   "note": "False as stated: 2^256-1 is taken as -1. Proved for every scalar below 2^255."
  },
  {
   "property": "C41",
   "status": "partial",
   "theorems": [
    "C41_x25519_signatures_verify_refuted",
    "C41_x25519_signatures_verify_partial"
   ],
   "note": "False as stated: the empty message is signed and rejected. Proved for every non-empty message and every key below 2^255 that is not a multiple of L."
  },
  {
   "property": "C42",
   "status": "partial",
   "theorems": [
    "C42_conversion_partial",
    "C42_conversion_refuted"
   ],
   "note": "Proved with the exceptions u = -1 and y = 1, at which the round trip fails."
  },
  {
   "property": "C44",
   "status": "proved",
   "theorems": [
    "C44_field_arithmetic",
    "C44_scalar_arithmetic"
   ],
   "note": "int32/int64 wrap-around is in the model; no overflow is part of the proof."
  },
  {
   "property": "C64",
   "status": "proved",
   "theorems": [
    "C64_ed25519_verify"
   ],
   "note": ""
  },
  {
   "property": "C65",
   "status": "partial",
   "theorems": [
    "C65_ed25519_malleable_refuted"
   ],
   "note": "False: S + L is accepted as well."
  },
  {
   "property": "C66",
   "status": "partial",
   "theorems": [
    "C66_ed25519_points_partial"
   ],
   "note": "Points that decode; scalars below 2^255. Undecodable points are not rejected by the code; what it computes for them is not characterised."
  },
  {
   "property": "C67",
   "status": "partial",
   "theorems": [
    "C67_sm2_encryption_standard_partial"
   ],
   "note": "For runs without an underflow in sm2_stdReduceDegree (C30)."
  },
  {
   "property": "C68",
   "status": "partial",
   "theorems": [
    "C68_sm2_key_agreement_standard_partial"
   ],
   "note": "For runs without an underflow in sm2_stdReduceDegree (C30), identities of 1..8191 bytes, and initiator keys in general position (ka_regular)."
  },
  {
   "property": "C45",
   "status": "proved",
   "theorems": [
    "C45_pasta_fields",
    "C45_pasta_inverse_sqrt"
   ],
   "note": "All Montgomery field functions of both Pasta fields, inversion and square roots."
  },
  {
   "property": "C46",
   "status": "partial",
   "theorems": [
    "C46_pasta_sign",
    "C46_pasta_roundtrip_partial"
   ],
   "note": "Signatures equal the Mina scheme for every key, nonce and message of reduced field elements; they verify unless the x-coordinate of 2sG equals r, when the point addition can meet two representations of the same point and answers infinity."
  },
  {
   "property": "C47",
   "status": "partial",
   "theorems": [
    "C47_pasta_binding_refuted",
    "C47_pasta_verify_partial"
   ],
   "note": "False for the 65-byte form (and 64 zero bytes): one fixed signature verifies under every such key. Proved for 64- and 33-byte encodings of curve points: soundness for r not 0 mod p, completeness except when sG = -eP. Off-curve 64-byte keys are not covered."
  },
  {
   "property": "C48",
   "status": "partial",
   "theorems": [
    "C48_pasta_encodings_refuted",
    "C48_pasta_encodings_partial"
   ],
   "note": "False for Point_mulBaseG_add and Verify; holds for Point_add and Point_mul."
  },
  {
   "property": "C49",
   "status": "partial",
   "theorems": [
    "C49_pasta_decompress_refuted",
    "C49_pasta_decompress_partial",
    "C49_pasta_compress_roundtrip"
   ],
   "note": "False: every prefix and every x is answered. The exact answer is proved for all inputs, and valid encodings round-trip."
  },
  {
   "property": "C50",
   "status": "partial",
   "theorems": [
    "C50_pasta_negate_refuted"
   ],
   "note": "False: AffineNegate returns its argument."
  },
  {
   "property": "C51",
   "status": "proved",
   "theorems": [
    "C51_poseidon"
   ],
   "note": "For reduced field elements; messages come from JSON and may hold unreduced words, which the theorem does not cover."
  },
  {
   "property": "C69",
   "status": "proved",
   "theorems": [
    "C69_pasta_keygen"
   ],
   "note": ""
  },
  {
   "property": "C70",
   "status": "proved",
   "theorems": [
    "C70_pasta_points"
   ],
   "note": "65-byte arguments excepted for Point_mulBaseG_add (see C48)."
  },
  {
   "property": "C71",
   "status": "proved",
   "theorems": [
    "C71_pasta_total"
   ],
   "note": "The nonce loop is bounded by fuel; C46_pasta_sign says when it is exhausted."
  },
  {
   "property": "C55",
   "status": "proved",
   "theorems": [
    "C55_portable_field",
    "C55_forms"
   ],
   "note": "Portable arithmetic (arithmetic_fallback.go) modelled line by line; add, sub, neg, double, mul exact modulo p for all reduced operands. Squaring is C72."
  },
  {
   "property": "C72",
   "status": "partial",
   "theorems": [
    "C72_portable_square_refuted",
    "C72_portable_square_partial",
    "C72_portable_sq_ok_partial"
   ],
   "note": "The claim is false of the portable square: a carry is lost; a counterexample is proved. It is right for elements whose Montgomery form has words below 2^63 (partial). On amd64 square is mul (C73)."
  },
  {
   "property": "C73",
   "status": "partial",
   "theorems": [
    "C73_amd64_linear_partial",
    "C73_amd64_deterministic",
    "C73_amd64_mulADX_refuted",
    "C73_amd64_mulNoADX_refuted"
   ],
   "note": "Addition, subtraction, doubling and negation proved; both multiplications are wrong on rare operands: ADX drops an overflow-chain carry, NoADX uses a clobbered carry flag when a quotient digit is 1. Counterexamples proved for every entry state."
  },
  {
   "property": "C74",
   "status": "partial",
   "theorems": [
    "C74_frames_partial",
    "C74_frames_refuted"
   ],
   "note": "All routines but mulNoADX and mulAssignNoADX stay in the frame; those two use 16(SP) in a frame of 16 bytes."
  },
  {
   "property": "C52",
   "status": "proved",
   "theorems": [
    "C52_expand",
    "C52_empty",
    "C52_hash_total"
   ],
   "note": "Against expand_message_xmd of RFC 9380 written in SpecBlsHash.v, for every hash function. Output length 0 panics. G2 HashToCurve returns a point for every message and tag."
  },
  {
   "property": "C53",
   "status": "proved",
   "theorems": [
    "C53_separated",
    "C53_signed_point"
   ],
   "note": "For every hash-to-curve function: a NUL call consults it at (message, NUL tag) only, an AUG call at (public key then message, AUG tag) only. append is modelled as concatenation (see C43)."
  },
  {
   "property": "C54",
   "status": "partial",
   "theorems": [
    "C54_never_crashes_refuted",
    "C54_crash_set",
    "C54_never_crashes_partial"
   ],
   "note": "False as stated: a 48-byte public key that does not decode together with a signature that decodes is a nil dereference. C54_crash_set characterises exactly the inputs that crash."
  },
  {
   "property": "C75",
   "status": "partial",
   "theorems": [
    "C75_identity_refuted"
   ],
   "note": "False: public key c000.. and signature c000.. verify every message under both identifiers, for every field build and pairing."
  },
  {
   "property": "C76",
   "status": "partial",
   "theorems": [
    "C76_untagged_refuted"
   ],
   "note": "False: without one of the two tags in front, Sign returns c000.. for every key and message. Through Signature the tag is always present (C53_signed_point)."
  },
  {
   "property": "C43",
   "status": "partial",
   "theorems": [
    "C43_inputs_unchanged_refuted",
    "C43_inputs_unchanged_partial",
    "C43_answer_partial"
   ],
   "note": "False as stated: Verify for BLS_AUG appends the message to the public-key slice, so spare capacity behind the key is overwritten (a signature stored there is replaced by the message and the answer changes). Unchanged whenever the spare capacity is smaller than the message. The clamping of CURVE25519_SHA256 keys is the other case. The remaining entry points are modelled as functions of slice contents."
  },
  {
   "property": "C77",
   "status": "partial",
   "theorems": [
    "C77_csha_pub_partial",
    "C77_csha_pub_length"
   ],
   "note": "All 32-byte keys; the one gap is pack: when u(kB) is one of the 19 largest residues the bytes may be those of u - p modulo 2^256, depending on the limbs."
  },
  {
   "property": "C78",
   "status": "partial",
   "theorems": [
    "C78_csha_key_unchanged_refuted",
    "C78_csha_key_after",
    "C78_csha_sign_key_after",
    "C78_csha_key_unchanged_iff"
   ],
   "note": "False: both functions overwrite the caller's key with its clamped form; unchanged exactly for keys that are clamped already."
  },
  {
   "property": "C79",
   "status": "proved",
   "theorems": [
    "C79_csha_verify_canonical",
    "C79_csha_verify_order"
   ],
   "note": "Both bounds, the lengths and the non-empty message."
  },
  {
   "property": "C80",
   "status": "partial",
   "theorems": [
    "C80_csha_sign_total",
    "C80_csha_sign_partial"
   ],
   "note": "Termination and range for all keys; the formula for all keys but the one that clamps to 5L - 1, and nonces x whose u(xB) is not one of the 19 largest residues (pack)."
  },
  {
   "property": "C81",
   "status": "partial",
   "theorems": [
    "C81_csha_verify_partial"
   ],
   "note": "All points of the prime-order subgroup except the identity and +-B (public key 9); u(vA + hB) not one of the 19 largest residues. Public keys on the twist or outside the subgroup are not covered."
  },
  {
   "property": "C82",
   "status": "partial",
   "theorems": [
    "C82_csha_empty_refuted",
    "C82_csha_roundtrip_partial"
   ],
   "note": "False for the empty message: Signature signs it, Verify refuses it. True for non-empty messages with the exceptions of C80."
  },
  {
   "property": "C83",
   "status": "proved",
   "theorems": [
    "C83_keccak_amd64",
    "C83_keccak_amd64_memory"
   ],
   "note": "The 24 rounds are kept as the assembly expands them; instruction semantics in ModelKeccakX.v."
  },
  {
   "property": "C84",
   "status": "proved",
   "theorems": [
    "C84_signature_forms",
    "C84_one_form"
   ],
   "note": "Portable build: decoder sound, complete and injective, including the square root in F_p(i) and the subgroup check; every hash and every pairing."
  },
  {
   "property": "C85",
   "status": "partial",
   "theorems": [
    "C85_refused",
    "C85_sum_partial",
    "C85_sum_exact_partial"
   ],
   "note": "Which lists fail: complete for the portable build. The value: for the portable build if the two squarings of the last inversion are right (C72: not always); without condition for a build that squares correctly."
  },
  {
   "property": "C86",
   "status": "partial",
   "theorems": [
    "C86_accepted_partial",
    "C86_accepted_exact_partial"
   ],
   "note": "Relative to a pairing: bilinear, and the generator separates points (hypotheses; that the engine decides products of the ate pairing is C93, that this pairing is bilinear is not proved). Key by its decoded point in the portable build, by its encoding in a build that squares correctly."
  },
  {
   "property": "C87",
   "status": "partial",
   "theorems": [
    "C87_signature_partial",
    "C87_roundtrip_partial",
    "C87_multisig_partial"
   ],
   "note": "Round trip and multi-signature for builds that square correctly, relative to a pairing and to kyber's public key; the value of the signature for the portable build if two squarings are right."
  },
  {
   "property": "C88",
   "status": "proved",
   "theorems": [
    "C88_hash_to_field"
   ],
   "note": "Every build exact in all routines but squaring, so the portable one; the hash is any function with 32 bytes of output."
  },
  {
   "property": "C89",
   "status": "partial",
   "theorems": [
    "C89_map_total",
    "C89_encode_partial",
    "C89_zero_refuted"
   ],
   "note": "Builds that square correctly; every message whose hashed element is not 0. For 0 the code takes -B/(ZA) where the RFC has B/(ZA): another point, still of the subgroup (refuted theorem)."
  },
  {
   "property": "C90",
   "status": "partial",
   "theorems": [
    "C90_hash_partial"
   ],
   "note": "Builds that square correctly; both elements not 0 and not mapped to one point (for equal points the code doubles with the formula of y^2 = x^3 + b, wrong on the isogenous curve). The code takes the sum before the isogeny; the isogeny is proved a homomorphism, so the theorem states the sum of RFC 9380 section 3."
  },
  {
   "property": "C91",
   "status": "partial",
   "theorems": [
    "C91_roundtrip_partial"
   ],
   "note": "As C90, for a hash that is not infinity, relative to a pairing and to kyber's public key (hypotheses)."
  },
  {
   "property": "C92",
   "status": "partial",
   "theorems": [
    "C92_field",
    "C92_powers",
    "C92_square_refuted",
    "C92_inverse_exact_partial",
    "C92_bytes"
   ],
   "note": "All but Inverse for every build exact in all routines but squaring, so the portable one; Inverse for builds that square correctly. Square of an element outside the subgroup is another number (refuted: 2 goes to 8). Exp for exponents that are not negative (any integer: C97)."
  },
  {
   "property": "C93",
   "status": "partial",
   "theorems": [
    "C93_result_exact_partial",
    "C93_decides_exact_partial",
    "C93_valid_exact_partial"
   ],
   "note": "Builds that square correctly; affine points, the second in G2. The specification is the ate pairing with the standard field and the line through affine points; its bilinearity and non-degeneracy are not proved."
  },
  {
   "property": "C94",
   "status": "partial",
   "theorems": [
    "C94_append_exact_partial",
    "C94_order_exact_partial",
    "C94_negated_exact_partial"
   ],
   "note": "Builds that square correctly. Cancellation for the first argument; bilinearity in general is not proved."
  },
  {
   "property": "C95",
   "status": "partial",
   "theorems": [
    "C95_verify_exact_partial"
   ],
   "note": "Builds that square correctly; no hypothesis on the pairing. That the equation singles out one signature needs bilinearity (C86)."
  },
  {
   "property": "C96",
   "status": "proved",
   "theorems": [
    "C96_sha3_input",
    "C96_sha3_output"
   ],
   "note": "Little-endian loads of 64-bit words; the five block lengths the package uses."
  },
  {
   "property": "C97",
   "status": "partial",
   "theorems": [
    "C97_exp",
    "C97_exp_partial",
    "C97_negative_partial",
    "C97_negative_refuted"
   ],
   "note": "The exact result for every integer: the power by s mod 2^BitLen(s), so the claim holds for s >= 0 and fails for s < 0: Exp by -1 gives the element back, which is not its inverse unless it is one. C97_negative_refuted shows that GT has an element other than one, by counting the roots of a polynomial, so the claim is false for negative s."
  },
  {
   "property": "C98",
   "status": "proved",
   "theorems": [
    "C98_exponents",
    "C98_generates",
    "C98_strings"
   ],
   "note": "For every build exact in all routines but squaring, so the portable one. That an element other than one exists is C98_met (roots of a polynomial are counted)."
  },
  {
   "property": "C99",
   "status": "partial",
   "theorems": [
    "C99_one_key_partial",
    "C99_count_partial",
    "C99_verify_partial"
   ],
   "note": "Builds that square correctly (in the portable build a square root may be missed, C72). Verify relative to a pairing, as C86, and for messages hashed to a point of G2."
  },
  {
   "property": "C100",
   "status": "partial",
   "theorems": [
    "C100_signatures",
    "C100_one_key_partial"
   ],
   "note": "The number of signatures for the portable build, without condition. One key per signature: builds that square correctly, relative to a pairing, as C86, and for messages hashed to a point of G2 other than infinity."
  },
  {
   "property": "C101",
   "status": "partial",
   "theorems": [
    "C101_k1_one_key",
    "C101_r1_one_key",
    "C101_pasta_partial",
    "C101_pasta_refuted"
   ],
   "note": "Proved for secp256k1 and for secp256r1 (relative to the contract of elliptic.P256). False for PASTA: keys end at 2^254, below the order, so the negative of the generator has no key; no point has two keys (partial)."
  },
  {
   "property": "C102",
   "status": "proved",
   "theorems": [
    "C102_k1_four_keys",
    "C102_r1_four_keys",
    "C102_k1_second_key",
    "C102_r1_second_key"
   ],
   "note": "secp256r1 relative to the contract of elliptic.P256. Keys are counted as points; on secp256k1 the strings of one point whose coordinates differ by p count once. The second key may be the point at infinity (64 zero bytes)."
  },
  {
   "property": "C103",
   "status": "partial",
   "theorems": [
    "C103_k1_altered_refuted",
    "C103_r1_altered_refuted",
    "C103_k1_partial",
    "C103_r1_partial"
   ],
   "note": "False: with s also n - s is accepted (Verify does not ask for the lower half, although Signature returns only such s, C04). Proved: at most four second halves are accepted. secp256r1 relative to the contract of elliptic.P256."
  }
 ]
}