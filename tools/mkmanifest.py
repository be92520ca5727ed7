"""Writes MANIFEST.json from the table below, checking that every theorem exists."""
import json,re,glob
C=[]
def c(prop,status,theorems,note): C.append(dict(property=prop,status=status,theorems=theorems.split(),note=note))
c("C01","proved","C01_k1_public_key","All byte strings; group law proved from the curve equation.")
c("C02","proved","C02_k1_signatures_verify C02_signing_key_has_public_key","For every random stream; SHA-512/AES-CTR generator is a parameter.")
c("C03","proved","C03_k1_verify_is_ecdsa C03_k1_verify_total","Any 64-byte key denoting a curve point, coordinates reduced or not.")
c("C04","proved","C04_k1_signatures_canonical","Ranges, low s, DER shape of both halves, v.")
c("C05","proved","C05_k1_recovery","The condition on the nonce point's x-coordinate is implied by the canonical form of r.")
c("C06","proved","C06_k1_recovered_keys_verify","")
c("C07","partial","C07_recovery_never_crashes_refuted C07_k1_recovery_no_crash_partial","False as stated: r = 0 mod N crashes (nil inverse). Proved: no crash for any other r.")
c("C08","partial","C08_zero_hash_recovery_refuted","False as stated: concrete signature of the zero hash whose recovery fails.")
c("C09","proved","C09_k1_compression_round_trip","")
c("C10","partial","C10_decompression_on_curve_refuted C10_k1_decompression_partial","False as stated: x with x^3+7 a non-square yields an off-curve point. Proved for all other x.")
c("C11","proved","C11_k1_point_add","33, 64 and 65 byte encodings; doubling and inverses included.")
c("C12","proved","C12_k1_point_mul","All 32-byte scalars.")
c("C13","proved","C13_k1_mulBaseG_add","")
c("C14","proved","C14_k1_homomorphic","Also the case a+b = 0 mod N.")
c("C15","partial","C15_point_apis_refuted C15_k1_no_crash_partial","False as stated: 33-byte points with a wrong tag and short points crash. Proved for well-tagged secp256k1 inputs.")
c("C16","partial","C16_r1_sum_x0_refuted C16_r1_point_add_partial","False as stated: concrete points whose sum (0,y) is reported as FAILURE. Proved: exact behaviour in all other cases.")
c("C17","proved","C17_r1_signatures_verify C17_r1_signatures_canonical C17_r1_recovery","Contract of crypto/elliptic is an explicit hypothesis (implements), shown satisfiable; recovery needs hash <> 0 mod N (see C08).")
c("C18","proved","C18_curve_orders","Primality by Pocklington certificates; the order of every curve point for the Weierstrass curves, of the base point for ED25519.")
c("C19","partial","C19_unknown_identifiers_partial C19_unknown_identifiers_refuted","False as stated: Point_add and Point_mul crash on 33-byte points. Proved for everything else.")
c("C30","partial","C30_sm2_field_partial C30_sm2_mul_refuted C30_sm2_square_refuted","False as stated: an underflow in the degree reduction makes some in-range products wrong. Addition, subtraction and conversions proved exact for all operands in range; multiplication and squaring proved exact whenever no elimination step underflows.")
c("C57","proved","C57_r1_public_key C57_r1_verify_is_ecdsa C57_r1_compression_round_trip C57_r1_point_mul C57_r1_mulBaseG_add C57_r1_homomorphic","")
c("C56","partial","C56_off_curve_keys_rejected_refuted","False: concrete off-curve key accepted.")
c("C21","partial","C21_sm2_signatures_verify_refuted C21_sm2_signatures_verify_partial","False as stated: a signature with r+s = N is produced and rejected. Proved for every run without a field underflow, with r+s not 0 mod N and sG different from tP.")
c("C22","partial","C22_sm2_sign_never_crashes_refuted C22_sm2_sign_never_crashes_partial","False as stated: d = N-1 crashes. Proved for every other key, identity, hash and random stream.")
c("C23","partial","C23_sm2_point_add_refuted C23_sm2_point_add_partial","False as stated: P+P is refused, and an underflow gives a wrong sum for a concrete curve point. Proved for distinct points when no underflow happens.")
c("C24","partial","C24_sm2_decryption_partial","Proved for every run without a field underflow.")
c("C25","partial","C25_sm2_decryption_authenticates_refuted","False: every ciphertext of at least 65 bytes decrypts with SUCCESS.")
c("C26","partial","C26_sm2_decryption_never_crashes_refuted C26_sm2_decryption_never_crashes_partial","False as stated: lengths 1 to 64 crash. Proved for all other lengths.")
c("C27","partial","C27_sm2_key_agreement_partial","Honest runs without underflow and outside the doubling exponents; length of the key is C28.")
c("C28","partial","C28_sm2_agreed_key_length_refuted C28_sm2_agreed_key_length_partial","False as stated: keylen 8192 yields an empty key with SUCCESS. Proved for keylen < 8192, both roles.")
c("C29","partial","C29_sm2_recovery_refuted","False: two keys with the same signature.")
c("C58","partial","C58_sm2_point_mul_refuted C58_sm2_point_mul_partial","False as stated: an underflow makes 2P wrong for a concrete P. Proved when no underflow happens.")
c("C59","partial","C59_sm2_verify_is_sm2_partial","Runs without underflow, sG different from tP.")
c("C60","partial","C60_sm2_public_key_partial","Illegal keys: all byte strings. Legal keys: runs without underflow.")
c("C61","proved","C61_sm2_compression_round_trip","")
c("C31","proved","C31_sm3_standard","")
c("C32","proved","C32_streaming","SM3, BLAKE-224/256/384/512 with and without salt, BLAKE2s with and without key, Keccak-256/512 and SHA3-224/256/384/512.")
c("C33","partial","C33_sum_keeps_state_refuted C33_sum_keeps_state_partial","False for SM3: Sum absorbs its argument and changes the state. Proved for all other hashes over every history of Write, Sum and Reset.")
c("C34","proved","C34_blake_standard C34_blake_salted","")
c("C35","proved","C35_sha3_standard C35_sha3_other C35_shake_standard","The Go permutation (keccakf.go); C83 proves the amd64 assembly version equal to it.")
c("C36","proved","C36_blake2s_standard C36_hash_blake2s","The repository has the Go compression function only.")
c("C37","proved","C37_composites C37_hmac C37_unknown","SHA-2, RIPEMD-160, MD4/5, BLAKE2b are parameters; the repository's own hashes inside the composites are the specified ones.")
c("C62","partial","C62_shake_clone_refuted C62_shake_clone_partial","False for SHAKE256: the clone panics after one byte is read. Proved for SHAKE128 and for clones taken before reading.")
c("C63","partial","C63_hash_never_crashes_refuted C63_hash_length_refuted C63_hash_never_crashes_partial","False as stated: BLAKE2s with length 33 panics, length 288 returns 32 bytes. Proved for all other types and lengths.")
c("C20","partial","C20_illegal_keys_refuted C20_pasta_refuted C20_bls_refuted C20_illegal_keys_partial","False as stated: under the BLS identifiers the keys 0 and r are signed with (SUCCESS, constant signature) and all other illegal keys give FAILURE; the errors of packages eddsa and pasta are different values, so ED25519, ED25519_NORMAL, X25519 and PASTA answer FAILURE, and PASTA accepts the zero key. Proved for secp256k1, P-256 and SM2.")
c("C38","proved","C38_ed25519_normal","Public key and signature also equal those of RFC 8032; SHA-512 is a parameter of which only the output length is assumed.")
c("C39","partial","C39_ed25519_raw_refuted C39_ed25519_raw_partial C39_ed25519_clamped","False as stated: Signature clamps the scalar, GenPubkey does not. Exact condition proved for every key below 2^255; clamped keys verify.")
c("C40","partial","C40_ed25519_public_key_refuted C40_ed25519_public_key_partial","False as stated: 2^256-1 is taken as -1. Proved for every scalar below 2^255.")
c("C41","partial","C41_x25519_signatures_verify_refuted C41_x25519_signatures_verify_partial","False as stated: the empty message is signed and rejected. Proved for every non-empty message and every key below 2^255 that is not a multiple of L.")
c("C42","partial","C42_conversion_partial C42_conversion_refuted","Proved with the exceptions u = -1 and y = 1, at which the round trip fails.")
c("C44","proved","C44_field_arithmetic C44_scalar_arithmetic","int32/int64 wrap-around is in the model; no overflow is part of the proof.")
c("C64","proved","C64_ed25519_verify","")
c("C65","partial","C65_ed25519_malleable_refuted","False: S + L is accepted as well.")
c("C66","partial","C66_ed25519_points_partial","Points that decode; scalars below 2^255. Undecodable points are not rejected by the code; what it computes for them is not characterised.")
c("C67","partial","C67_sm2_encryption_standard_partial","For runs without an underflow in sm2_stdReduceDegree (C30).")
c("C68","partial","C68_sm2_key_agreement_standard_partial","For runs without an underflow in sm2_stdReduceDegree (C30), identities of 1..8191 bytes, and initiator keys in general position (ka_regular).")
c("C45","proved","C45_pasta_fields C45_pasta_inverse_sqrt","All Montgomery field functions of both Pasta fields, inversion and square roots.")
c("C46","partial","C46_pasta_sign C46_pasta_roundtrip_partial","Signatures equal the Mina scheme for every key, nonce and message of reduced field elements; they verify unless the x-coordinate of 2sG equals r, when the point addition can meet two representations of the same point and answers infinity.")
c("C47","partial","C47_pasta_binding_refuted C47_pasta_verify_partial","False for the 65-byte form (and 64 zero bytes): one fixed signature verifies under every such key. Proved for 64- and 33-byte encodings of curve points: soundness for r not 0 mod p, completeness except when sG = -eP. Off-curve 64-byte keys are not covered.")
c("C48","partial","C48_pasta_encodings_refuted C48_pasta_encodings_partial","False for Point_mulBaseG_add and Verify; holds for Point_add and Point_mul.")
c("C49","partial","C49_pasta_decompress_refuted C49_pasta_decompress_partial C49_pasta_compress_roundtrip","False: every prefix and every x is answered. The exact answer is proved for all inputs, and valid encodings round-trip.")
c("C50","partial","C50_pasta_negate_refuted","False: AffineNegate returns its argument.")
c("C51","proved","C51_poseidon","For reduced field elements; messages come from JSON and may hold unreduced words, which the theorem does not cover.")
c("C69","proved","C69_pasta_keygen","")
c("C70","proved","C70_pasta_points","65-byte arguments excepted for Point_mulBaseG_add (see C48).")
c("C71","proved","C71_pasta_total","The nonce loop is bounded by fuel; C46_pasta_sign says when it is exhausted.")
c("C55","proved","C55_portable_field C55_forms","Portable arithmetic (arithmetic_fallback.go) modelled line by line; add, sub, neg, double, mul exact modulo p for all reduced operands. Squaring is C72.")
c("C72","partial","C72_portable_square_refuted C72_portable_square_partial C72_portable_sq_ok_partial","The claim is false of the portable square: a carry is lost; a counterexample is proved. It is right for elements whose Montgomery form has words below 2^63 (partial). On amd64 square is mul (C73).")
c("C73","partial","C73_amd64_linear_partial C73_amd64_deterministic C73_amd64_mulADX_refuted C73_amd64_mulNoADX_refuted","Addition, subtraction, doubling and negation proved; both multiplications are wrong on rare operands: ADX drops an overflow-chain carry, NoADX uses a clobbered carry flag when a quotient digit is 1. Counterexamples proved for every entry state.")
c("C74","partial","C74_frames_partial C74_frames_refuted","All routines but mulNoADX and mulAssignNoADX stay in the frame; those two use 16(SP) in a frame of 16 bytes.")
c("C52","proved","C52_expand C52_empty C52_hash_total","Against expand_message_xmd of RFC 9380 written in SpecBlsHash.v, for every hash function. Output length 0 panics. G2 HashToCurve returns a point for every message and tag.")
c("C53","proved","C53_separated C53_signed_point","For every hash-to-curve function: a NUL call consults it at (message, NUL tag) only, an AUG call at (public key then message, AUG tag) only. append is modelled as concatenation (see C43).")
c("C54","partial","C54_never_crashes_refuted C54_crash_set C54_never_crashes_partial","False as stated: a 48-byte public key that does not decode together with a signature that decodes is a nil dereference. C54_crash_set characterises exactly the inputs that crash.")
c("C75","partial","C75_identity_refuted","False: public key c000.. and signature c000.. verify every message under both identifiers, for every field build and pairing.")
c("C76","partial","C76_untagged_refuted","False: without one of the two tags in front, Sign returns c000.. for every key and message. Through Signature the tag is always present (C53_signed_point).")
c("C43","partial","C43_inputs_unchanged_refuted C43_inputs_unchanged_partial C43_answer_partial","False as stated: Verify for BLS_AUG appends the message to the public-key slice, so spare capacity behind the key is overwritten (a signature stored there is replaced by the message and the answer changes). Unchanged whenever the spare capacity is smaller than the message. The clamping of CURVE25519_SHA256 keys is the other case. The remaining entry points are modelled as functions of slice contents.")
c("C77","partial","C77_csha_pub_partial C77_csha_pub_length","All 32-byte keys; the one gap is pack: when u(kB) is one of the 19 largest residues the bytes may be those of u - p modulo 2^256, depending on the limbs.")
c("C78","partial","C78_csha_key_unchanged_refuted C78_csha_key_after C78_csha_sign_key_after C78_csha_key_unchanged_iff","False: both functions overwrite the caller's key with its clamped form; unchanged exactly for keys that are clamped already.")
c("C79","proved","C79_csha_verify_canonical C79_csha_verify_order","Both bounds, the lengths and the non-empty message.")
c("C80","partial","C80_csha_sign_total C80_csha_sign_partial","Termination and range for all keys; the formula for all keys but the one that clamps to 5L - 1, and nonces x whose u(xB) is not one of the 19 largest residues (pack).")
c("C81","partial","C81_csha_verify_partial","All points of the prime-order subgroup except the identity and +-B (public key 9); u(vA + hB) not one of the 19 largest residues. Public keys on the twist or outside the subgroup are not covered.")
c("C82","partial","C82_csha_empty_refuted C82_csha_roundtrip_partial","False for the empty message: Signature signs it, Verify refuses it. True for non-empty messages with the exceptions of C80.")
c("C83","proved","C83_keccak_amd64 C83_keccak_amd64_memory","The 24 rounds are kept as the assembly expands them; instruction semantics in ModelKeccakX.v.")
c("C84","proved","C84_signature_forms C84_one_form","Portable build: decoder sound, complete and injective, including the square root in F_p(i) and the subgroup check; every hash and every pairing.")
c("C85","partial","C85_refused C85_sum_partial C85_sum_exact_partial","Which lists fail: complete for the portable build. The value: for the portable build if the two squarings of the last inversion are right (C72: not always); without condition for a build that squares correctly.")
c("C86","partial","C86_accepted_partial C86_accepted_exact_partial","Relative to a pairing: bilinear, and the generator separates points (hypotheses; that the engine decides products of the ate pairing is C93, that this pairing is bilinear is not proved). Key by its decoded point in the portable build, by its encoding in a build that squares correctly.")
c("C87","partial","C87_signature_partial C87_roundtrip_partial C87_multisig_partial","Round trip and multi-signature for builds that square correctly, relative to a pairing and to kyber's public key; the value of the signature for the portable build if two squarings are right.")
c("C88","proved","C88_hash_to_field","Every build exact in all routines but squaring, so the portable one; the hash is any function with 32 bytes of output.")
c("C89","partial","C89_map_total C89_encode_partial C89_zero_refuted","Builds that square correctly; every message whose hashed element is not 0. For 0 the code takes -B/(ZA) where the RFC has B/(ZA): another point, still of the subgroup (refuted theorem).")
c("C90","partial","C90_hash_partial","Builds that square correctly; both elements not 0 and not mapped to one point (for equal points the code doubles with the formula of y^2 = x^3 + b, wrong on the isogenous curve). The code takes the sum before the isogeny; the isogeny is proved a homomorphism, so the theorem states the sum of RFC 9380 section 3.")
c("C91","partial","C91_roundtrip_partial","As C90, for a hash that is not infinity, relative to a pairing and to kyber's public key (hypotheses).")
c("C92","partial","C92_field C92_powers C92_square_refuted C92_inverse_exact_partial C92_bytes","All but Inverse for every build exact in all routines but squaring, so the portable one; Inverse for builds that square correctly. Square of an element outside the subgroup is another number (refuted: 2 goes to 8). Exp for exponents that are not negative (any integer: C97).")
c("C93","partial","C93_result_exact_partial C93_decides_exact_partial C93_valid_exact_partial","Builds that square correctly; affine points, the second in G2. The specification is the ate pairing with the standard field and the line through affine points; its bilinearity and non-degeneracy are not proved.")
c("C94","partial","C94_append_exact_partial C94_order_exact_partial C94_negated_exact_partial","Builds that square correctly. Cancellation for the first argument; bilinearity in general is not proved.")
c("C95","partial","C95_verify_exact_partial","Builds that square correctly; no hypothesis on the pairing. That the equation singles out one signature needs bilinearity (C86).")
c("C96","proved","C96_sha3_input C96_sha3_output","Little-endian loads of 64-bit words; the five block lengths the package uses.")
c("C97","partial","C97_exp C97_exp_partial C97_negative_partial C97_negative_refuted","The exact result for every integer: the power by s mod 2^BitLen(s), so the claim holds for s >= 0 and fails for s < 0: Exp by -1 gives the element back, which is not its inverse unless it is one. C97_negative_refuted shows that GT has an element other than one, by counting the roots of a polynomial, so the claim is false for negative s.")
c("C98","proved","C98_exponents C98_generates C98_strings","For every build exact in all routines but squaring, so the portable one. That an element other than one exists is C98_met (roots of a polynomial are counted).")
c("C99","partial","C99_one_key_partial C99_count_partial C99_verify_partial","Builds that square correctly (in the portable build a square root may be missed, C72). Verify relative to a pairing, as C86, and for messages hashed to a point of G2.")
c("C100","partial","C100_signatures C100_one_key_partial","The number of signatures for the portable build, without condition. One key per signature: builds that square correctly, relative to a pairing, as C86, and for messages hashed to a point of G2 other than infinity.")
c("C101","partial","C101_k1_one_key C101_r1_one_key C101_pasta_partial C101_pasta_refuted","Proved for secp256k1 and for secp256r1 (relative to the contract of elliptic.P256). False for PASTA: keys end at 2^254, below the order, so the negative of the generator has no key; no point has two keys (partial).")
c("C102","proved","C102_k1_four_keys C102_r1_four_keys C102_k1_second_key C102_r1_second_key","secp256r1 relative to the contract of elliptic.P256. Keys are counted as points; on secp256k1 the strings of one point whose coordinates differ by p count once. The second key may be the point at infinity (64 zero bytes).")
c("C103","partial","C103_k1_altered_refuted C103_r1_altered_refuted C103_k1_partial C103_r1_partial","False: with s also n - s is accepted (Verify does not ask for the lower half, although Signature returns only such s, C04). Proved: at most four second halves are accepted. secp256r1 relative to the contract of elliptic.P256.")
names=set()
for f in glob.glob('/verif/rocq/theories/*.v'):
    names|=set(re.findall(r'^\s*(?:Theorem|Lemma|Corollary)\s+([A-Za-z0-9_\']+)',open(f).read(),re.M))
for x in C:
    for t in x['theorems']: assert t in names,(x['property'],t)
json.dump({"claims":C},open('/verif/MANIFEST.json','w'),indent=1)
print(len(C),'claims')
