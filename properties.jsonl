{"id": "C01", "title": "secp256k1 public key is [d]G", "statement": "GenPubkey(d, SECP256K1) returns SUCCESS exactly when d is a 32-byte string encoding a number 1 <= d < N, and then the 64 returned bytes are the fixed-width big-endian affine coordinates of the d-fold sum of the generator in the elliptic-curve group; every other private key returns ECC_PRIKEY_ILLEGAL and no key.", "quantifier": "all byte strings (any length, nil) as private key", "why_tests_cant": "2^256 keys; tests compare a handful of vectors and cannot exercise the exceptional additions of the Jacobian double-and-add", "anchors": ["eccset.go:GenPubkey", "ecdsa.go:genPublicKey", "secp256k1.go:ScalarMult", "secp256k1.go:addJacobian", "secp256k1.go:doubleJacobian", "secp256k1.go:affineFromJacobian"]}
{"id": "C02", "title": "secp256k1 signatures verify", "statement": "Whenever Signature(d, _, h, SECP256K1) returns SUCCESS, Verify(GenPubkey(d), _, h, sig, SECP256K1) returns SUCCESS.", "quantifier": "all private keys, all 32-byte hashes, all outputs of the random source", "why_tests_cant": "randomised signing over 2^256 keys x 2^256 hashes x all nonces", "anchors": ["eccset.go:Signature", "eccset.go:Verify", "utils.go:signGeneric", "utils.go:verifyGeneric"]}
{"id": "C03", "title": "secp256k1 verification is exactly the ECDSA equation", "statement": "Verify(Q, _, h, (r,s), SECP256K1) for a public key Q on the curve returns SUCCESS iff 1<=r<N, 1<=s<N and the x-coordinate of (h/s)G + (r/s)Q is defined and congruent to r mod N.", "quantifier": "all on-curve public keys, all hashes, all 64-byte signatures", "why_tests_cant": "universally quantified over 2^1024 inputs; soundness cannot be tested", "anchors": ["eccset.go:Verify", "ecdsa.go:verify", "utils.go:verifyesdsa", "utils.go:verifyGeneric", "secp256k1.go:Add"]}
{"id": "C04", "title": "ECDSA signatures are canonical", "statement": "Every signature returned with SUCCESS for secp256k1 has 1 <= r < N, 1 <= s <= N/2, both halves have a clear top bit and neither half has a redundant leading zero octet in its DER integer encoding, and v is 0 or 1.", "quantifier": "all keys, hashes and random streams", "why_tests_cant": "the rejection loop depends on random values; a violating nonce has small probability and would never be hit by a test", "anchors": ["utils.go:signGeneric", "ecdsa.go:sign"]}
{"id": "C05", "title": "public key recovery returns the signer's key", "statement": "RecoverPubkey(sig||v, h, SECP256K1) returns the signer's public key for every signature produced by Signature, provided the nonce point's x-coordinate is below N and h is not congruent to 0 mod N.", "quantifier": "all keys, hashes and nonces", "why_tests_cant": "cannot enumerate keys, hashes, nonces", "anchors": ["eccset.go:RecoverPubkey", "secp256k1.go:secp256k1_recover_public"]}
{"id": "C06", "title": "recovered keys always verify", "statement": "If RecoverPubkey(sig, h, SECP256K1) returns SUCCESS with key Q, then Verify(Q, _, h, sig[:64]) returns SUCCESS.", "quantifier": "all 65-byte signatures and 32-byte hashes, including adversarial ones", "why_tests_cant": "adversarial inputs are unbounded", "anchors": ["secp256k1.go:secp256k1_recover_public", "utils.go:verifyesdsa"]}
{"id": "C07", "title": "recovery never crashes", "statement": "RecoverPubkey returns an error code, without a run-time panic, on every input.", "quantifier": "all byte strings as signature and message", "why_tests_cant": "crashing inputs (r = 0 mod N) are specific values no random test hits", "anchors": ["secp256k1.go:secp256k1_recover_public", "secp256r1.go:secp256r1_recover_public"]}
{"id": "C08", "title": "recovery works for the zero hash", "statement": "RecoverPubkey also recovers the signer's key when the 32-byte hash is congruent to 0 modulo the group order.", "quantifier": "all keys and nonces with h = 0 mod N", "why_tests_cant": "a single point of a 2^256 input space", "anchors": ["secp256k1.go:secp256k1_recover_public"]}
{"id": "C09", "title": "point compression round trip", "statement": "For every point of secp256k1 given as 64 bytes (or 65 with the 04 prefix), PointDecompress(PointCompress(P)) = 04||P.", "quantifier": "all points of the curve", "why_tests_cant": "2^256 points", "anchors": ["eccset.go:PointCompress", "eccset.go:PointDecompress", "secp256k1.go:secp256k1_decompress"]}
{"id": "C10", "title": "decompression only returns curve points", "statement": "Whenever PointDecompress(c, SECP256K1) returns a point, that point satisfies the curve equation and has the x-coordinate and parity encoded in c.", "quantifier": "all 33-byte strings", "why_tests_cant": "half of all x are non-residues, but a test has to look at the returned bytes", "anchors": ["eccset.go:PointDecompress", "secp256k1.go:secp256k1_decompress"]}
{"id": "C11", "title": "Point_add is the group operation on secp256k1", "statement": "For all points P, Q on the curve in 33/64/65 byte encodings Point_add returns the encoding of P+Q with SUCCESS, or FAILURE iff P+Q is the point at infinity; this includes P=Q and P=-Q.", "quantifier": "all pairs of curve points", "why_tests_cant": "pairs of points unbounded; exceptional cases P=Q, P=-Q", "anchors": ["eccset.go:Point_add", "ecdsa.go:Add", "secp256k1.go:Add"]}
{"id": "C12", "title": "Point_mul is scalar multiplication on secp256k1", "statement": "For every curve point P and every 32-byte scalar k (reduced or not, zero included) Point_mul returns the encoding of kP with SUCCESS, or FAILURE iff kP is the point at infinity.", "quantifier": "all points and all 2^256 scalars", "why_tests_cant": "unbounded", "anchors": ["eccset.go:Point_mul", "ecdsa.go:Mul", "secp256k1.go:ScalarMult"]}
{"id": "C13", "title": "Point_mulBaseG_add computes kG+P", "statement": "For every curve point P (64 bytes) and 32-byte scalar k Point_mulBaseG_add(P,k,SECP256K1) returns (encoding of kG+P, false), or (nil, true) iff kG+P is the point at infinity.", "quantifier": "all points and scalars", "why_tests_cant": "unbounded, exceptional cases", "anchors": ["eccset.go:Point_mulBaseG_add", "ecdsa.go:MulBaseG_Add"]}
{"id": "C14", "title": "homomorphic key derivation", "statement": "Point_mulBaseG_add(GenPubkey(a), b) equals GenPubkey((a+b) mod N) for secp256k1 whenever a+b is not 0 mod N (BIP32 child keys of public and private derivation agree).", "quantifier": "all a, b", "why_tests_cant": "wallets rely on it for every derived address", "anchors": ["eccset.go:Point_mulBaseG_add", "eccset.go:GenPubkey"]}
{"id": "C15", "title": "point APIs reject malformed input without crashing", "statement": "Point_add, Point_mul, Point_mulBaseG_add, PointCompress and PointDecompress return an error value rather than panic on every byte string and every curve identifier.", "quantifier": "all byte strings, all type identifiers", "why_tests_cant": "crashing inputs are specific malformed encodings", "anchors": ["eccset.go:Point_add", "eccset.go:Point_mul", "eccset.go:Point_mulBaseG_add"]}
{"id": "C16", "title": "P-256: sums with x=0 are not infinity", "statement": "Point_add on secp256r1 returns FAILURE only when the sum is the point at infinity.", "quantifier": "all pairs of points of P-256", "why_tests_cant": "the only finite points affected are the two with x=0", "anchors": ["ecdsa.go:Add"]}
{"id": "C17", "title": "P-256 signatures verify and recover", "statement": "For secp256r1, under the documented contract of the Go standard library curve, every SUCCESS signature verifies under the matching public key, is canonical, and RecoverPubkey returns that key.", "quantifier": "all keys, hashes, nonces and every standard-library implementation meeting its contract", "why_tests_cant": "unbounded", "anchors": ["utils.go:signGeneric", "utils.go:verifyGeneric", "secp256r1.go:secp256r1_recover_public"]}
{"id": "C18", "title": "curve orders are the true orders", "statement": "GetCurveOrder returns, for secp256k1, P-256, SM2 and Pallas, a prime n in big-endian with nG = O and the base point of order exactly n; for ED25519 likewise.", "quantifier": "the supported identifiers; all scalars modulo the order", "why_tests_cant": "primality and order are number-theoretic facts", "anchors": ["eccset.go:GetCurveOrder"]}
{"id": "C19", "title": "unknown identifiers are rejected", "statement": "Every dispatching function returns its documented wrong-type result for every identifier that is not one of the documented constants and never touches its other arguments.", "quantifier": "all 2^32 identifiers", "why_tests_cant": "2^32 identifiers x arguments", "anchors": ["eccset.go", "hashset.go", "profile.go"]}
{"id": "C20", "title": "illegal private keys are reported as such", "statement": "GenPubkey and Signature return ECC_PRIKEY_ILLEGAL for private keys of wrong length or out of range, for every curve.", "quantifier": "all curves, all illegal keys", "why_tests_cant": "unbounded keys x curves; error identity across packages", "anchors": ["eccset.go:GenPubkey", "eccset.go:Signature", "eddsa/ed25519.go", "pasta/pasta.go"]}
{"id": "C21", "title": "SM2 signatures verify", "statement": "Whenever Signature(d, ID, h, SM2) returns SUCCESS, Verify(GenPubkey(d), ID, h, sig, SM2) returns SUCCESS.", "quantifier": "all keys, identities, hashes, random streams", "why_tests_cant": "unbounded; failing combinations are negligible-probability corner cases", "anchors": ["sm2_std.go:sm2_std_sign", "sm2_std.go:sm2_std_verify", "sm2_std.go:sm2_stdPointAdd"]}
{"id": "C22", "title": "SM2 signing never crashes", "statement": "Signature with SM2 returns a code, not a panic, for every legal private key.", "quantifier": "all private keys in [1,N-1]", "why_tests_cant": "one bad key in 2^256", "anchors": ["sm2_std.go:sm2_std_sign"]}
{"id": "C23", "title": "SM2 point addition is the group operation", "statement": "Point_add on SM2 returns the encoding of P+Q for all curve points P, Q with P+Q finite (including P=Q).", "quantifier": "all pairs of points", "why_tests_cant": "unbounded; doubling case", "anchors": ["sm2_std.go:Add", "sm2_std.go:sm2_stdPointAdd", "ecdsa.go:Add"]}
{"id": "C24", "title": "SM2 encryption round trip", "statement": "Decryption(d, Encryption(GenPubkey(d), m)) = m with SUCCESS for every non-empty message.", "quantifier": "all keys, messages of every length, random streams", "why_tests_cant": "message lengths and keys unbounded", "anchors": ["sm2_std.go:sm2_std_encrypt", "sm2_std.go:sm2_std_decrypt", "eccset.go:Encryption", "eccset.go:Decryption"]}
{"id": "C25", "title": "SM2 decryption reports tampering", "statement": "Decryption returns SUCCESS only when the ciphertext passes its integrity check.", "quantifier": "all ciphertexts", "why_tests_cant": "adversarial ciphertexts unbounded", "anchors": ["eccset.go:Decryption", "sm2_std.go:sm2_std_decrypt"]}
{"id": "C26", "title": "SM2 decryption never crashes", "statement": "Decryption returns a code, not a panic, for ciphertexts of every length.", "quantifier": "all byte strings", "why_tests_cant": "all lengths below 97", "anchors": ["sm2_std.go:sm2_std_decrypt"]}
{"id": "C27", "title": "SM2 key agreement agrees", "statement": "If initiator and responder run the key-agreement steps honestly, both obtain the same key of the requested length and both confirmation checks succeed.", "quantifier": "all key pairs, identities, ephemeral keys and key lengths", "why_tests_cant": "unbounded", "anchors": ["sm2_std.go:sm2_std_ka_initiator_step2", "sm2_std.go:sm2_std_ka_responder_step1", "sm2_std.go:sm2_std_ka_responder_step2"]}
{"id": "C28", "title": "SM2 key agreement honours the key length", "statement": "The agreed key has exactly keylen bytes.", "quantifier": "all uint16 key lengths", "why_tests_cant": "65536 lengths; overflow only from 8192 on", "anchors": ["sm2_std.go:ka_kdf"]}
{"id": "C29", "title": "SM2 recovery recovers", "statement": "RecoverPubkey(sig||v, h, SM2) returns the signer's public key for signatures made by Signature with SM2.", "quantifier": "all keys, hashes, nonces", "why_tests_cant": "unbounded", "anchors": ["sm2_std.go:sm2_std_recover_public"]}
{"id": "C30", "title": "SM2 field arithmetic is exact", "statement": "The 9-limb SM2 field addition, subtraction, multiplication, squaring and conversion compute the corresponding operation modulo p without overflow for every pair of in-range operands.", "quantifier": "all limb values within the documented bounds", "why_tests_cant": "carry chains fail on extremal limbs only", "anchors": ["sm2_std.go:sm2_stdMul", "sm2_std.go:sm2_stdReduceDegree", "sm2_std.go:sm2_stdAdd", "sm2_std.go:sm2_stdSub"]}
{"id": "C31", "title": "SM3 is the standard function", "statement": "Hash(m, _, SM3) is the GM/T 0004 SM3 digest of m.", "quantifier": "messages of every length", "why_tests_cant": "lengths unbounded, padding boundary cases", "anchors": ["sm3/sm3.go", "hashset.go:Hash"]}
{"id": "C32", "title": "streaming equals one-shot", "statement": "For SM3, BLAKE-256, BLAKE-512, BLAKE2s, Keccak and SHA3 writing a message in any number of chunks of any sizes gives the same digest as writing it at once.", "quantifier": "all messages and all ways of splitting them", "why_tests_cant": "all split patterns", "anchors": ["sm3/sm3.go:Write", "blake256/blake256.go:Write", "blake512/blake512.go:Write", "blake2s/blake2s.go:Write", "sha3/sha3.go:Write"]}
{"id": "C33", "title": "Sum does not disturb the running hash", "statement": "Calling Sum(b) appends the digest to b and leaves the hash state unchanged, so it can be called repeatedly and interleaved with Write (the hash.Hash contract).", "quantifier": "all histories of Write/Sum/Reset calls", "why_tests_cant": "call histories unbounded", "anchors": ["sm3/sm3.go:Sum", "blake256/blake256.go:Sum", "blake512/blake512.go:Sum", "blake2s/blake2s.go:Sum", "sha3/sha3.go:Sum"]}
{"id": "C34", "title": "BLAKE-256/512 match their specification", "statement": "The digests equal the SHA-3 finalist BLAKE specification (round function, constants, counter and padding rules) for every message.", "quantifier": "all messages shorter than 2^64 bits", "why_tests_cant": "padding/counter boundaries, unrolled rounds", "anchors": ["blake256/blake256block.go", "blake512/blake512block.go"]}
{"id": "C35", "title": "Keccak and SHA3 match FIPS 202", "statement": "The sponge, padding and permutation equal the FIPS 202 definition for every message; Keccak-256/512 differ only in the domain byte.", "quantifier": "all messages", "why_tests_cant": "unbounded lengths; unrolled permutation", "anchors": ["sha3/sha3.go", "sha3/keccakf.go"]}
{"id": "C36", "title": "BLAKE2s matches RFC 7693", "statement": "The BLAKE2s digest equals the RFC 7693 definition for every message, key and digest length 1..32.", "quantifier": "all messages, keys up to 32 bytes, digest lengths", "why_tests_cant": "unbounded", "anchors": ["blake2s/blake2s.go", "hashset.go:Hash"]}
{"id": "C37", "title": "composite hashes and HMAC compose as documented", "statement": "HASH160 = RIPEMD160(SHA256(m)), DOUBLE_SHA256 = SHA256(SHA256(m)), KECCAK256_RIPEMD160 and SHA3_256_RIPEMD160 likewise; Hmac is RFC 2104 HMAC; unknown types give nil.", "quantifier": "all messages, keys and type identifiers", "why_tests_cant": "unbounded", "anchors": ["hashset.go:Hash", "hashset.go:Hmac"]}
{"id": "C38", "title": "Ed25519 (standard) signatures verify", "statement": "Verify(GenPubkey(k), _, m, Signature(k, _, m), ED25519_NORMAL) = SUCCESS.", "quantifier": "all 32-byte keys and all messages", "why_tests_cant": "unbounded", "anchors": ["eddsa/curve25519.go", "eddsa/edwards25519/edwards25519.go"]}
{"id": "C39", "title": "Ed25519 (raw scalar) signatures verify", "statement": "Verify(GenPubkey(k), _, m, Signature(k, _, m), ED25519) = SUCCESS.", "quantifier": "all 32-byte keys, messages and random streams", "why_tests_cant": "unbounded; fails for unclamped keys", "anchors": ["eddsa/ed25519.go"]}
{"id": "C40", "title": "Ed25519 GenPubkey multiplies by the given scalar", "statement": "GenPubkey(k, ED25519) is the encoding of kB for every 32-byte scalar k.", "quantifier": "all 2^256 scalars", "why_tests_cant": "unbounded; digit recoding overflows above 2^255", "anchors": ["eddsa/ed25519.go:ED25519_genPub", "eddsa/edwards25519/edwards25519.go:GeScalarMultBase"]}
{"id": "C41", "title": "X25519 signatures verify", "statement": "Verify(GenPubkey(k), _, m, Signature(k, _, m), X25519) = SUCCESS.", "quantifier": "all keys and messages, the empty message included", "why_tests_cant": "unbounded", "anchors": ["eddsa/x25519.go"]}
{"id": "C42", "title": "Edwards/Montgomery conversion round trip", "statement": "CURVE25519_convert_Ed_to_X(CURVE25519_convert_X_to_Ed(u)) = u for every canonical u other than -1 and the maps are mutually inverse up to the sign bit.", "quantifier": "all 2^255 coordinates", "why_tests_cant": "unbounded", "anchors": ["eddsa/convert.go"]}
{"id": "C43", "title": "GenPubkey does not modify the private key", "statement": "GenPubkey, Signature and Verify leave their input slices unchanged for every curve.", "quantifier": "all curves, all inputs", "why_tests_cant": "side effects invisible to value-comparing tests", "anchors": ["eddsa/curve25519_sha256.go:Keygen", "eccset.go:Verify"]}
{"id": "C44", "title": "Ed25519 field and scalar arithmetic is exact", "statement": "The 10-limb field operations and the 21-bit-limb scalar multiply-add/reduction compute the operation modulo 2^255-19 and modulo L without overflow for all in-range operands.", "quantifier": "all limb values within bounds", "why_tests_cant": "carry chains", "anchors": ["eddsa/edwards25519/edwards25519.go:FeMul", "eddsa/edwards25519/edwards25519.go:ScMulAdd", "eddsa/edwards25519/edwards25519.go:ScReduce"]}
{"id": "C45", "title": "Pasta field arithmetic is exact", "statement": "The 4-limb Montgomery multiplication, squaring, addition, subtraction, negation and conversions of the Pasta fields compute the corresponding operation modulo p (q) and return reduced results.", "quantifier": "all operands", "why_tests_cant": "saturated carry chains fail only on extremal values", "anchors": ["pasta/pasta_fp.go", "pasta/pasta_fq.go"]}
{"id": "C46", "title": "Pasta signatures verify", "statement": "Verify(GenPubkey(d), _, m, Signature(d, _, m), PASTA) = SUCCESS for every private key and well-formed message.", "quantifier": "all keys, messages and nonces", "why_tests_cant": "unbounded", "anchors": ["pasta/pasta.go:Sign", "pasta/pasta.go:Verify"]}
{"id": "C47", "title": "Pasta verification binds to the public key", "statement": "Verify(Q, _, m, sig, PASTA) = SUCCESS only if the Schnorr equation holds for the point encoded by Q, in each accepted encoding of Q (33, 64 and 65 bytes).", "quantifier": "all public key encodings, messages and signatures", "why_tests_cant": "adversarial inputs; a key-independent forgery is not found by positive tests", "anchors": ["pasta/pasta.go:Verify", "pasta/crypto.go:FromBigEndianBytes"]}
{"id": "C48", "title": "Pasta point encodings agree", "statement": "The 64-byte and 65-byte (04-prefixed) encodings of a point denote the same point in every PASTA operation.", "quantifier": "all points", "why_tests_cant": "unbounded", "anchors": ["pasta/crypto.go:FromBigEndianBytes", "eccset.go:Point_mulBaseG_add"]}
{"id": "C49", "title": "Pasta decompression validates its input", "statement": "PointDecompress(c, PASTA) returns a point only for a prefix 02/03 and an x-coordinate on the curve.", "quantifier": "all 33-byte strings", "why_tests_cant": "half of all inputs", "anchors": ["pasta/crypto.go:FromBigEndianBytes", "pasta/crypto.go:Decompress"]}
{"id": "C50", "title": "Pasta negation negates", "statement": "AffineNegate(P) is -P.", "quantifier": "all points", "why_tests_cant": "P=-P only at infinity", "anchors": ["pasta/crypto.go:GroupNegate", "pasta/crypto.go:AffineNegate"]}
{"id": "C51", "title": "Poseidon absorbs its whole input", "statement": "Absorbing a list of field elements in several updates equals absorbing the concatenation; the digest is the 3-wide Poseidon sponge of the input.", "quantifier": "all lists and splits", "why_tests_cant": "unbounded", "anchors": ["pasta/poseidon.go"]}
{"id": "C52", "title": "BLS hash-to-field expansion is RFC 9380", "statement": "The message expansion used for BLS hashing equals expand_message_xmd for all messages, for domain tags up to 255 bytes and output lengths below 255*32.", "quantifier": "all messages, tags and lengths", "why_tests_cant": "unbounded", "anchors": ["bls12_381/bls/hash_to_field.go:expandMsgSHA256XMD"]}
{"id": "C53", "title": "BLS schemes are domain separated", "statement": "A message signed under the NUL scheme is never hashed to the curve with the same (message, tag) pair as one signed under the AUG scheme.", "quantifier": "all messages and keys", "why_tests_cant": "unbounded", "anchors": ["eccset.go:Signature", "bls12_381/g2.go:Hash"]}
{"id": "C54", "title": "BLS verification never crashes", "statement": "Verify with a BLS identifier returns a code, not a panic, for every public key and signature.", "quantifier": "all byte strings", "why_tests_cant": "malformed 48-byte keys", "anchors": ["bls12_381/bls12-381.go:Verify"]}
{"id": "C55", "title": "BLS12-381 base field arithmetic is exact", "statement": "The 6-limb Montgomery addition, subtraction, negation, doubling and multiplication (portable implementation) compute the operation modulo q for all reduced operands.", "quantifier": "all reduced operands", "why_tests_cant": "carry chains", "anchors": ["bls12_381/bls/arithmetic_fallback.go"]}
{"id": "C56", "title": "off-curve public keys are rejected", "statement": "Verify(Q, _, h, sig, SECP256K1) returns FAILURE for every 64-byte Q whose coordinates do not satisfy the curve equation.", "quantifier": "all 64-byte strings, hashes and signatures", "why_tests_cant": "adversarial keys on another curve (invalid-curve inputs)", "anchors": ["ecdsa.go:verify", "utils.go:verifyGeneric"]}
{"id": "C57", "title": "P-256 keys, verification, compression and point functions", "statement": "Under the contract of the Go standard library curve, the secp256r1 key generation, verification, compression, scalar multiplication and base-point-multiply-and-add functions compute the ECDSA and group operations, and key derivation commutes with addition of private keys.", "quantifier": "all keys, points, scalars, hashes and signatures; every standard-library implementation meeting its contract", "why_tests_cant": "unbounded inputs", "anchors": ["eccset.go:GenPubkey", "eccset.go:Point_mul", "eccset.go:Point_mulBaseG_add", "secp256r1.go", "utils.go"]}
{"id": "C58", "title": "SM2 point multiplication is the group operation", "statement": "Point_mul(P, k, SM2) returns the encoding of kP for every curve point P and 32-byte scalar k with kP finite.", "quantifier": "all curve points, all 32-byte scalars", "why_tests_cant": "the field arithmetic goes wrong on a thin set of operands no test vector meets", "anchors": ["eccset.go:Point_mul", "sm2_std.go", "sm2_std.go:sm2_stdReduceDegree"]}
{"id": "C59", "title": "SM2 verification is exactly the SM2 equation", "statement": "Verify(Q, ID, h, (r,s), SM2) for a curve point Q returns SUCCESS iff the identity is admissible and (r,s) satisfies the verification equation of GB/T 32918.2 for the digest derived from ID, Q and h.", "quantifier": "all curve points, identities, hashes, signatures", "why_tests_cant": "soundness cannot be tested", "anchors": ["eccset.go:Verify", "sm2_std.go"]}
{"id": "C60", "title": "SM2 public key is [d]G", "statement": "GenPubkey(d, SM2) returns the encoding of dG with SUCCESS for each 32-byte d with 1 <= d < N, and ECC_PRIKEY_ILLEGAL for every other byte string.", "quantifier": "all byte strings", "why_tests_cant": "2^256 keys", "anchors": ["eccset.go:GenPubkey", "sm2_std.go"]}
{"id": "C61", "title": "SM2 compression round trip", "statement": "PointDecompress(PointCompress(P)) = 04||P for every finite SM2 curve point, given with or without its tag byte.", "quantifier": "all finite curve points", "why_tests_cant": "square roots modulo a 256-bit prime over all points", "anchors": ["eccset.go:PointCompress", "eccset.go:PointDecompress", "sm2_std.go"]}
{"id": "C62", "title": "a cloned SHAKE continues like the original", "statement": "Clone() of a SHAKE128 or SHAKE256 state, taken after any Writes and Reads, yields the same remaining output as the original.", "quantifier": "all messages, all sequences of Reads before the clone", "why_tests_cant": "histories of reads; the failure depends on the position in the block", "anchors": ["sha3/sha3.go:clone", "sha3/shake.go:Clone"]}
{"id": "C63", "title": "Hash never crashes and honours the digest length", "statement": "Hash(m, len, type) returns for every message, length and type, and a BLAKE2s digest has the requested length.", "quantifier": "all messages, all 16-bit lengths, all types", "why_tests_cant": "65536 lengths times all types and messages", "anchors": ["hashset.go:Hash"]}
{"id": "C64", "title": "Ed25519 Verify accepts exactly the signatures of the equation", "statement": "Verify(pub, _, m, sig, ED25519 or ED25519_NORMAL) = SUCCESS if and only if pub has 32 bytes and decodes to a curve point A, sig = R || S has 64 bytes with S < 2^253, and the encoding of [S]B - [H(R,pub,m) mod L]A is R; otherwise it returns FAILURE.", "quantifier": "every public key, message and signature byte string", "why_tests_cant": "soundness and completeness of verification range over all signatures and keys, and the double-scalar multiplication has data-dependent branches", "anchors": ["eddsa/ed25519.go:ED25519_verify", "eddsa/curve25519.go:CURVE25519_verify", "eddsa/edwards25519/edwards25519.go:GeDoubleScalarMultVartime"]}
{"id": "C65", "title": "Ed25519 signatures cannot be altered", "statement": "If Verify accepts a signature R || S for a key and a message, it does not accept a different string R || S' for them.", "quantifier": "every key, message and accepted signature", "why_tests_cant": "needs the order of the base point and the range check for all S", "anchors": ["eddsa/curve25519.go:CURVE25519_verify"]}
{"id": "C66", "title": "Ed25519 point addition", "statement": "Point_add(p, q, ED25519) is the encoding of the sum of the points p and q decode to, and Point_mulBaseG_add(p, k, ED25519) that of p + kB, with the neutral element reported as such; undecodable points are rejected.", "quantifier": "every pair of encodings and every 32-byte scalar", "why_tests_cant": "all points, including inverses, doubling and small-order points", "anchors": ["eddsa/ed25519.go:ScalarMultBaseAdd", "eddsa/ed25519.go:Point_add"]}
{"id": "C67", "title": "SM2 encryption is the standard's", "statement": "Every ciphertext Encryption(Q, m, SM2) returns with SUCCESS is 04 || kG || SM3(x2 || m || y2) || (m xor KDF(x2 || y2, |m|)) for some k in 1..N-1 with (x2, y2) = kQ and a derived key that is not all zero, KDF being the SM3 based function of GB/T 32918.4 with a counter starting at 1.", "quantifier": "every public key, message and random stream", "why_tests_cant": "a round-trip test cannot see a deviation both directions share; interoperability ranges over all messages and nonces", "anchors": ["eccset.go:Encryption", "sm2_std.go:sm2_std_encrypt", "sm2_std.go:kdf"]}
{"id": "C68", "title": "SM2 key agreement is the standard's", "statement": "The agreed key is KDF(xU || yU || ZA || ZB, keylen) and the confirmation values are SM3(02 or 03 || yU || SM3(xU || ZA || ZB || RA || RB)), with U the point GB/T 32918.3 defines from either side's secrets.", "quantifier": "all identities, keys, temporary keys and key lengths below 8192", "why_tests_cant": "a test where both sides run this library cannot see a shared deviation", "anchors": ["eccset.go:KeyAgreement_responder_ElGamal_step1", "sm2_std.go:ka_kdf", "sm2_std.go:ka_check"]}
{"id": "C69", "title": "Pasta public keys", "statement": "GenPubkey(d, PASTA) returns SUCCESS and the 64-byte encoding of dG exactly for the 32-byte keys d below 2^254, G being the Pallas base point (1, y), and FAILURE otherwise.", "quantifier": "every private key byte string", "why_tests_cant": "all 2^254 scalars", "anchors": ["pasta/pasta.go:GenPublicKey", "eccset.go:GenPubkey"]}
{"id": "C70", "title": "Pasta point operations", "statement": "Point_add, Point_mul, Point_mulBaseG and Point_mulBaseG_add with PASTA return the encodings of P+Q, kP, kG and P+kG for every pair of curve points (equal, opposite and infinite ones included) and every 32-byte scalar, in each encoding they decode (65-byte arguments of Point_mulBaseG_add excepted).", "quantifier": "all curve points, encodings and scalars", "why_tests_cant": "the exceptional cases of the addition formulas are unreachable by random tests", "anchors": ["pasta/pasta.go:PointAdd", "pasta/pasta.go:PointMul", "pasta/crypto.go:GroupAdd", "pasta/crypto.go:GroupScalarMul"]}
{"id": "C71", "title": "Pasta functions always return", "statement": "No exported function with PASTA panics or loops forever on any byte strings (square roots always terminate), apart from drawing nonces that are all zero.", "quantifier": "all keys, points, scalars and signatures", "why_tests_cant": "termination of Tonelli-Shanks ranges over all field elements", "anchors": ["pasta/crypto.go:FieldSqrt", "pasta/pasta.go:Verify", "eccset.go:Point_add"]}
{"id": "C72", "title": "BLS12-381 squaring is exact", "statement": "On every platform the squaring of base field elements gives the square modulo the field prime for all reduced operands.", "quantifier": "all reduced operands", "why_tests_cant": "a carry that only rare operands produce", "anchors": ["bls12_381/bls/arithmetic_fallback.go:square"]}
{"id": "C73", "title": "BLS12-381 assembly arithmetic is exact", "statement": "On amd64 the assembly addition, subtraction, negation, doubling and multiplication of base field elements give the operation modulo the field prime for all reduced operands, whatever registers, stack and flags hold on entry, with and without the ADX instructions.", "quantifier": "all reduced operands and all machine states at entry", "why_tests_cant": "carry flags that only rare operands set; probability around 2^-60 per multiplication", "anchors": ["bls12_381/bls/arithmetic_x86.s", "bls12_381/bls/arithmetic_decl.go"]}
{"id": "C74", "title": "BLS12-381 assembly keeps inside its stack frame", "statement": "Every assembly routine only touches stack bytes inside the frame its TEXT directive declares.", "quantifier": "all routines and instructions", "why_tests_cant": "the byte above the frame is often unused, so an overrun shows only with particular callers", "anchors": ["bls12_381/bls/arithmetic_x86.s"]}
{"id": "C75", "title": "BLS verification depends on the message", "statement": "With a BLS identifier no public key and signature pair that Verify accepts for one message is accepted for every message; in particular the point at infinity is not accepted as a public key.", "quantifier": "all public keys, signatures and messages", "why_tests_cant": "degenerate encodings of the identity", "anchors": ["bls12_381/bls12-381.go:Verify", "bls12_381/group.go:ValidatePairing", "bls12_381/bls/pairing.go:AddPair"]}
{"id": "C76", "title": "BLS signing binds the message", "statement": "bls12_381.Sign returns signatures that depend on the message, whatever the message starts with.", "quantifier": "all keys and messages", "why_tests_cant": "messages without the two known tags", "anchors": ["bls12_381/bls12-381.go:Sign", "bls12_381/g2.go:Hash"]}
{"id": "C77", "title": "CURVE25519_SHA256 public keys are X25519 keys", "statement": "With the CURVE25519_SHA256 identifier GenPubkey returns, for every 32-byte private key, the 32-byte little-endian u coordinate of the clamped key times the base point (RFC 7748); other lengths are refused.", "quantifier": "all byte strings as private keys", "why_tests_cant": "the ladder runs through 255 secret bits; the packing code has rare carry cases", "anchors": ["eddsa/curve25519_sha256.go:CURVE25519_sha256_genPub", "eddsa/curve25519_sha256.go:core", "eccset.go:GenPubkey"]}
{"id": "C78", "title": "CURVE25519_SHA256 leaves the private key alone", "statement": "With the CURVE25519_SHA256 identifier GenPubkey and Signature leave the private key in the caller's slice as it was.", "quantifier": "all private keys and messages", "why_tests_cant": "only a caller that compares its key before and after sees the write; clamped keys hide it", "anchors": ["eddsa/curve25519_sha256.go:Keygen", "eddsa/curve25519_sha256.go:clamp"]}
{"id": "C79", "title": "CURVE25519_SHA256 accepts canonical encodings only", "statement": "With the CURVE25519_SHA256 identifier Verify answers success only for signatures of 64 bytes whose first half is below the group order, public keys of 32 bytes below the field prime, and non-empty messages.", "quantifier": "all public keys, messages and signatures", "why_tests_cant": "all encodings of a residue cannot be enumerated", "anchors": ["eddsa/curve25519_sha256.go:CURVE25519_sha256_verify", "eddsa/curve25519_sha256.go:IsCanonicalSignature", "eddsa/curve25519_sha256.go:IsCanonicalPublicKey"]}
{"id": "C80", "title": "CURVE25519_SHA256 signatures are EC-KCDSA signatures", "statement": "With the CURVE25519_SHA256 identifier Signature ends for every 32-byte private key and every message, and returns (v, h) with h = SHA256(SHA256(m) || u(xB)) and v = (x - h) s modulo the group order, where s is the inverse of the private exponent of even w coordinate and x the clamped SHA256(SHA256(m) || s).", "quantifier": "all 32-byte private keys and all messages, for every hash function with 32-byte results", "why_tests_cant": "the extended Euclidean algorithm and the long division on bytes have rare branches; the sign of the exponent depends on the key", "anchors": ["eddsa/curve25519_sha256.go:CURVE25519_sha256_sign", "eddsa/curve25519_sha256.go:Sign", "eddsa/curve25519_sha256.go:egcd32", "eddsa/curve25519_sha256.go:divmod"]}
{"id": "C81", "title": "CURVE25519_SHA256 verification decides the verification equation", "statement": "With the CURVE25519_SHA256 identifier Verify answers success for a public key, a non-empty message and a canonical signature (v, h) exactly when h = SHA256(SHA256(m) || u(vA + hB)), A being the point of the public key with even w coordinate.", "quantifier": "all public keys of the prime-order subgroup, messages and signatures", "why_tests_cant": "the chain of 256 differential additions has sixteen cases per bit and depends on two scalars", "anchors": ["eddsa/curve25519_sha256.go:CURVE25519_sha256_verify", "eddsa/curve25519_sha256.go:Verify"]}
{"id": "C82", "title": "CURVE25519_SHA256 signatures verify", "statement": "With the CURVE25519_SHA256 identifier, what Signature returns for a private key and a message is accepted by Verify under the public key GenPubkey returns for it.", "quantifier": "all 32-byte private keys and all messages", "why_tests_cant": "keys and nonces cannot be enumerated; the empty message and single exceptional keys are not in any test", "anchors": ["eddsa/curve25519_sha256.go:CURVE25519_sha256_sign", "eddsa/curve25519_sha256.go:CURVE25519_sha256_verify", "eccset.go:Signature", "eccset.go:Verify"]}
{"id": "C83", "title": "Keccak assembly computes the Keccak permutation", "statement": "The permutation used by the amd64 build of package sha3 equals Keccak-f[1600] of FIPS 202, hence the one of every other build, for every state and whatever registers and stack held before; it reads and writes nothing but the caller's state and its own frame.", "quantifier": "all states of 25 64-bit words, all register and stack contents", "why_tests_cant": "the 1600-bit state space cannot be enumerated, and a bug can depend on stale registers or stack words", "anchors": ["sha3/keccakf_amd64.s:keccakF1600", "sha3/keccakf_amd64.go:keccakF1600"]}
{"id": "C84", "title": "A BLS signature has one form", "statement": "In builds without the amd64 assembly, a 96-byte string passes AggregateSignatures as a single signature, and is returned unchanged, exactly if it is the compressed encoding of a point of y^2 = x^3 + 4(1+i) whose order divides r: x below p in both halves, the sign bit that of y, infinity as c000... only. All other strings are refused by AggregateSignatures and never accepted by Verify. Two points have two encodings.", "quantifier": "all strings of 96 bytes, both identifiers, every hash and pairing", "why_tests_cant": "2^768 strings; the decoder takes a square root in a quadratic extension and multiplies by the group order", "anchors": ["bls12_381/g2.go:UnmarshalBinary", "bls12_381/bls12-381.go:AggregateSignatures", "eccset.go:AggregateSignatures"]}
{"id": "C85", "title": "BLS aggregation adds points", "statement": "AggregateSignatures fails exactly if one of the signatures, cut to 96 bytes, is not an encoding of a point of G2; otherwise it returns the encoding of the sum of the points. So the order of the signatures and aggregating in stages do not matter.", "quantifier": "all non-empty lists of byte strings", "why_tests_cant": "lists of every length and every order; equal and opposite points take other branches of the addition", "anchors": ["bls12_381/bls12-381.go:AggregateSignatures", "eccset.go:AggregateSignatures", "bls12_381/g2.go:Add"]}
{"id": "C86", "title": "BLS verification accepts one signature per key and message", "statement": "If the public key is k times the generator and the message is hashed to the point H, Verify answers success for the encoding of k H and for no other byte string.", "quantifier": "all keys, messages and signatures, both identifiers, any non-degenerate bilinear pairing", "why_tests_cant": "soundness is about all signatures that are not the right one", "anchors": ["bls12_381/bls12-381.go:Verify", "bls12_381/group.go:ValidatePairing", "eccset.go:Verify"]}
{"id": "C87", "title": "BLS signatures verify, alone and aggregated", "statement": "Signature returns the encoding of the private key times the hashed message, which Verify accepts under the public key; the aggregate of signatures of one message under several keys is accepted under the sum of the keys (NUL identifier).", "quantifier": "all 32-byte private keys below the group order, all messages, all lists of keys", "why_tests_cant": "keys and messages cannot be enumerated", "anchors": ["bls12_381/bls12-381.go:Sign", "bls12_381/bls12-381.go:Verify", "bls12_381/bls12-381.go:AggregateSignatures", "eccset.go:Signature"]}
{"id": "C88", "title": "BLS hash_to_field follows RFC 9380", "statement": "For every message, every domain separation tag of at most 255 bytes and every count from 1 to 127, hashing to the field gives that many elements, element i being the i-th group of 64 bytes of expand_message_xmd as a big-endian number modulo p, in portable builds too.", "quantifier": "all messages, tags, counts and 32-byte hash functions", "why_tests_cant": "the message and the tag have any length, and the reduction of 512 bits takes a carry path per value", "anchors": ["bls12_381/bls/hash_to_field.go:hashToFpXMDSHA256", "bls12_381/bls/hash_to_field.go:expandMsgSHA256XMD", "bls12_381/bls/fp.go:from64Bytes"]}
{"id": "C89", "title": "The non-uniform encoding to G2 follows RFC 9380", "statement": "EncodeToCurve of G2 never fails for tags of at most 255 bytes; it returns a point of the subgroup of order r, namely h_eff times the isogeny of the simplified SWU map of the hashed field element, as in RFC 9380 for BLS12381G2_XMD:SHA-256_SSWU_NU_.", "quantifier": "all messages, tags and 32-byte hash functions; all elements of F_p(i)", "why_tests_cant": "2^762 field elements; whether the first or second candidate is a square and the sign of y split them into cases, and the element 0 is never hit by a test", "anchors": ["bls12_381/bls/g2.go:EncodeToCurve", "bls12_381/bls/swu.go:swuMapG2", "bls12_381/bls/isogeny.go:isogenyMapG2", "bls12_381/bls/g2.go:ClearCofactor"]}
{"id": "C90", "title": "Hashing to G2 follows RFC 9380", "statement": "HashToCurve of G2, which Signature and Verify use for messages, returns h_eff times the isogeny of the sum of the two mapped field elements, a point of the subgroup of order r, as in RFC 9380 for BLS12381G2_XMD:SHA-256_SSWU_RO_.", "quantifier": "all messages, tags and 32-byte hash functions", "why_tests_cant": "two field elements mapped to one point or to opposite points take other branches of the addition and cannot be found by tests", "anchors": ["bls12_381/bls/g2.go:HashToCurve", "bls12_381/bls/swu.go:swuMapG2", "bls12_381/bls/isogeny.go:isogenyMapG2", "bls12_381/bls/hash_to_field.go:hashToFpXMDSHA256"]}
{"id": "C91", "title": "BLS signatures are those of the IETF suites", "statement": "With S the RFC 9380 hash of the message (NUL) or of public key and message (AUG) under the tag of the suite, Signature returns the encoding of k S, and Verify under the public key k G accepts this byte string and no other.", "quantifier": "all 32-byte private keys below the group order, all messages, both identifiers", "why_tests_cant": "interoperability and uniqueness concern all keys, messages and candidate signatures", "anchors": ["bls12_381/bls12-381.go:Sign", "bls12_381/bls12-381.go:Verify", "bls12_381/bls/g2.go:HashToCurve", "eccset.go:Signature", "eccset.go:Verify"]}
{"id": "C92", "title": "BLS target group: arithmetic and encoding", "statement": "Add, Sub and Mul of GT are those of the field of p^12 elements; IsValid accepts exactly the elements whose order divides r; on those Square and Exp give the powers and stay in the group; Inverse gives the inverse. ToBytes writes the twelve coefficients, and FromBytes accepts exactly the 576-byte encodings of the elements whose order divides r and gives the element back.", "quantifier": "all elements of the field of p^12 elements, all non-negative exponents, all byte strings", "why_tests_cant": "2^4572 elements, and a formula that holds on a subgroup only agrees with the square on everything a test takes from a pairing", "anchors": ["bls12_381/bls/gt.go:IsValid", "bls12_381/bls/gt.go:FromBytes", "bls12_381/bls/gt.go:ToBytes", "bls12_381/bls/gt.go:Square", "bls12_381/bls/gt.go:Exp", "bls12_381/bls/fp12.go:mul", "bls12_381/bls/fp12.go:cyclotomicSquare", "bls12_381/bls/fp6.go:mul"]}
{"id": "C93", "title": "The pairing engine computes the optimal ate pairing", "statement": "Result returns the product over the added pairs of the optimal ate pairing (Miller's algorithm for x = -0xd201000000010000 with affine lines, then the power 3 (p^12 - 1) / r), Check tells whether this product is one, and the result is an element of GT that IsValid and FromBytes accept.", "quantifier": "all lists of pairs of points of G1 and G2", "why_tests_cant": "the points and the number of pairs are unbounded; the projective line formulas, the order of the coefficients and the final exponentiation must be right at every step", "anchors": ["bls12_381/bls/pairing.go:Result", "bls12_381/bls/pairing.go:Check", "bls12_381/bls/pairing.go:millerLoop", "bls12_381/bls/pairing.go:doublingStep", "bls12_381/bls/pairing.go:additionStep", "bls12_381/bls/pairing.go:finalExp", "bls12_381/bls/fp12.go:frobeniusMapAssign"]}
{"id": "C94", "title": "Pairing products: concatenation, order, cancellation", "statement": "Result of two lists of pairs joined is the product of the two results; the order of the pairs does not matter; a pair with -P cancels the pair with P, so that Check of (P, Q) and (-P', Q') tells whether the pairings of (P, Q) and (P', Q') agree.", "quantifier": "all lists of pairs of points; the first also for coordinates off the curve", "why_tests_cant": "relations between runs on lists of any length", "anchors": ["bls12_381/bls/pairing.go:AddPair", "bls12_381/bls/pairing.go:Result", "bls12_381/bls/pairing.go:Check", "bls12_381/group.go:ValidatePairing"]}
{"id": "C95", "title": "BLS verification is the pairing equation", "statement": "Verify accepts a signature if and only if the key is the compressed encoding of a point A of G1, the signature that of a point S of G2, and the ate pairings of (generator, S) and (A, hashed message) are equal.", "quantifier": "all keys, messages and signatures, both identifiers, every hash to a point of G2 other than infinity", "why_tests_cant": "soundness is about all strings a forger may send", "anchors": ["bls12_381/bls12-381.go:Verify", "bls12_381/group.go:ValidatePairing", "bls12_381/bls/pairing.go:Check", "eccset.go:Verify"]}
{"id": "C96", "title": "SHA-3 input and output do not depend on the platform", "statement": "For every hash object of package sha3 a block of input is absorbed, and a block of output written, in the same way by the code with unsafe pointers (amd64, 386, ppc64le) as by the portable code; the result does not depend on the memory behind the block.", "quantifier": "all hash objects, states, blocks and memory contents", "why_tests_cant": "the bytes behind a slice differ from run to run", "anchors": ["sha3/xor_unaligned.go:xorInUnaligned", "sha3/xor_unaligned.go:copyOutUnaligned", "sha3/xor_generic.go:xorInGeneric", "sha3/xor_generic.go:copyOutGeneric"]}
{"id": "C97", "title": "BLS target group: powers by any integer", "statement": "Exp of GT with an element of the group and any big integer s, negative or not, gives the s-th power of the element.", "quantifier": "all elements IsValid accepts, all integers", "why_tests_cant": "negative exponents are read through the bits of a two's complement of unbounded length", "anchors": ["bls12_381/bls/gt.go:Exp", "bls12_381/bls/fp12.go:cyclotomicExp"]}
{"id": "C98", "title": "BLS target group: cyclic of order r", "statement": "GT has exactly r elements: FromBytes accepts exactly r byte strings. Every element other than one generates the group: each element is its power by exactly one exponent below r. Two exponents that are not negative give the same power of such an element exactly when they agree modulo r.", "quantifier": "all elements IsValid accepts, all non-negative exponents, all byte strings", "why_tests_cant": "the group has about 2^255 elements and lies in a field of about 2^4570", "anchors": ["bls12_381/bls/gt.go:Exp", "bls12_381/bls/gt.go:FromBytes", "bls12_381/bls/gt.go:IsValid"]}
{"id": "C99", "title": "BLS: each public key belongs to one secret key", "statement": "Every byte string that is decoded as a public key is the encoding of d times the generator for exactly one secret key d below r, so exactly r strings are public keys; Verify accepts a key and a signature exactly if they are those of one d.", "quantifier": "all byte strings, messages and signatures", "why_tests_cant": "the keys are too many to enumerate and a key without a secret key cannot be recognised", "anchors": ["bls12_381/bls12-381.go:Verify", "bls12_381/bls/g1.go:FromCompressed", "eccset.go:Verify"]}
{"id": "C100", "title": "BLS: one public key for each signature of a message", "statement": "Exactly r strings of 96 bytes are signatures (those AggregateSignatures takes). In the basic scheme each of them is, for a given message, accepted under exactly one public key.", "quantifier": "all 96-byte strings, messages and public keys", "why_tests_cant": "a second key for a signature would be one among 2^384 strings", "anchors": ["bls12_381/bls12-381.go:Verify", "bls12_381/bls12-381.go:AggregateSignatures", "bls12_381/bls/g2.go:FromCompressed", "eccset.go:Verify"]}
{"id": "C101", "title": "Each curve point is the public key of exactly one private key", "statement": "For secp256k1, secp256r1 and PASTA: every point of the curve but infinity is what GenPubkey returns for exactly one private key.", "quantifier": "all points of the three curves, all byte strings as key", "why_tests_cant": "the curves have about 2^256 points", "anchors": ["eccset.go:GenPubkey", "ecdsa.go:genPublicKey", "pasta/pasta.go:GenPublicKey"]}
{"id": "C102", "title": "ECDSA: two to four public keys for each signature", "statement": "For secp256k1 and secp256r1: whatever the hash and the signature, Verify accepts them under at most four points of the curve as public key. If it accepts them under one point, it accepts them under a second: a signature does not determine the key.", "quantifier": "all hashes, signatures and sets of public keys on the curve", "why_tests_cant": "a further key would be one among about 2^256", "anchors": ["eccset.go:Verify", "ecdsa.go:verify"]}
{"id": "C103", "title": "ECDSA signatures cannot be altered", "statement": "For secp256k1 and secp256r1: for a public key on the curve, a hash and a first half r, Verify accepts at most one second half, so that an accepted signature cannot be turned into another one with the same r.", "quantifier": "all keys on the curve, hashes and signatures", "why_tests_cant": "an altered signature is one among 2^256", "anchors": ["eccset.go:Verify", "ecdsa.go:verify"]}
