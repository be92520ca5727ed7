import json
P=[]
def p(title,statement,quant,why,anchors):
    P.append(dict(id="C%02d"%(len(P)+1),title=title,statement=statement,quantifier=quant,why_tests_cant=why,anchors=anchors))

# ---- ECDSA / secp256k1 -------------------------------------------------
p("secp256k1 public key is [d]G",
  "GenPubkey(d, SECP256K1) returns SUCCESS exactly when d is a 32-byte string encoding a number 1 <= d < N, and then the 64 returned bytes are the fixed-width big-endian affine coordinates of the d-fold sum of the generator in the elliptic-curve group; every other private key returns ECC_PRIKEY_ILLEGAL and no key.",
  "all byte strings (any length, nil) as private key",
  "2^256 keys; tests compare a handful of vectors and cannot exercise the exceptional additions of the Jacobian double-and-add",
  ["eccset.go:GenPubkey","ecdsa.go:genPublicKey","secp256k1.go:ScalarMult","secp256k1.go:addJacobian","secp256k1.go:doubleJacobian","secp256k1.go:affineFromJacobian"])
p("secp256k1 signatures verify",
  "Whenever Signature(d, _, h, SECP256K1) returns SUCCESS, Verify(GenPubkey(d), _, h, sig, SECP256K1) returns SUCCESS.",
  "all private keys, all 32-byte hashes, all outputs of the random source",
  "randomised signing over 2^256 keys x 2^256 hashes x all nonces",
  ["eccset.go:Signature","eccset.go:Verify","utils.go:signGeneric","utils.go:verifyGeneric"])
p("secp256k1 verification is exactly the ECDSA equation",
  "Verify(Q, _, h, (r,s), SECP256K1) for a public key Q on the curve returns SUCCESS iff 1<=r<N, 1<=s<N and the x-coordinate of (h/s)G + (r/s)Q is defined and congruent to r mod N.",
  "all on-curve public keys, all hashes, all 64-byte signatures",
  "universally quantified over 2^1024 inputs; soundness cannot be tested",
  ["eccset.go:Verify","ecdsa.go:verify","utils.go:verifyesdsa","utils.go:verifyGeneric","secp256k1.go:Add"])
p("ECDSA signatures are canonical",
  "Every signature returned with SUCCESS for secp256k1 has 1 <= r < N, 1 <= s <= N/2, both halves have a clear top bit and neither half has a redundant leading zero octet in its DER integer encoding, and v is 0 or 1.",
  "all keys, hashes and random streams",
  "the rejection loop depends on random values; a violating nonce has small probability and would never be hit by a test",
  ["utils.go:signGeneric","ecdsa.go:sign"])
p("public key recovery returns the signer's key",
  "RecoverPubkey(sig||v, h, SECP256K1) returns the signer's public key for every signature produced by Signature, provided the nonce point's x-coordinate is below N and h is not congruent to 0 mod N.",
  "all keys, hashes and nonces", "cannot enumerate keys, hashes, nonces",
  ["eccset.go:RecoverPubkey","secp256k1.go:secp256k1_recover_public"])
p("recovered keys always verify",
  "If RecoverPubkey(sig, h, SECP256K1) returns SUCCESS with key Q, then Verify(Q, _, h, sig[:64]) returns SUCCESS.",
  "all 65-byte signatures and 32-byte hashes, including adversarial ones", "adversarial inputs are unbounded",
  ["secp256k1.go:secp256k1_recover_public","utils.go:verifyesdsa"])
p("recovery never crashes",
  "RecoverPubkey returns an error code, without a run-time panic, on every input.",
  "all byte strings as signature and message", "crashing inputs (r = 0 mod N) are specific values no random test hits",
  ["secp256k1.go:secp256k1_recover_public","secp256r1.go:secp256r1_recover_public"])
p("recovery works for the zero hash",
  "RecoverPubkey also recovers the signer's key when the 32-byte hash is congruent to 0 modulo the group order.",
  "all keys and nonces with h = 0 mod N", "a single point of a 2^256 input space",
  ["secp256k1.go:secp256k1_recover_public"])
p("point compression round trip",
  "For every point of secp256k1 given as 64 bytes (or 65 with the 04 prefix), PointDecompress(PointCompress(P)) = 04||P.",
  "all points of the curve", "2^256 points",
  ["eccset.go:PointCompress","eccset.go:PointDecompress","secp256k1.go:secp256k1_decompress"])
p("decompression only returns curve points",
  "Whenever PointDecompress(c, SECP256K1) returns a point, that point satisfies the curve equation and has the x-coordinate and parity encoded in c.",
  "all 33-byte strings", "half of all x are non-residues, but a test has to look at the returned bytes",
  ["eccset.go:PointDecompress","secp256k1.go:secp256k1_decompress"])
p("Point_add is the group operation on secp256k1",
  "For all points P, Q on the curve in 33/64/65 byte encodings Point_add returns the encoding of P+Q with SUCCESS, or FAILURE iff P+Q is the point at infinity; this includes P=Q and P=-Q.",
  "all pairs of curve points", "pairs of points unbounded; exceptional cases P=Q, P=-Q",
  ["eccset.go:Point_add","ecdsa.go:Add","secp256k1.go:Add"])
p("Point_mul is scalar multiplication on secp256k1",
  "For every curve point P and every 32-byte scalar k (reduced or not, zero included) Point_mul returns the encoding of kP with SUCCESS, or FAILURE iff kP is the point at infinity.",
  "all points and all 2^256 scalars", "unbounded",
  ["eccset.go:Point_mul","ecdsa.go:Mul","secp256k1.go:ScalarMult"])
p("Point_mulBaseG_add computes kG+P",
  "For every curve point P (64 bytes) and 32-byte scalar k Point_mulBaseG_add(P,k,SECP256K1) returns (encoding of kG+P, false), or (nil, true) iff kG+P is the point at infinity.",
  "all points and scalars", "unbounded, exceptional cases",
  ["eccset.go:Point_mulBaseG_add","ecdsa.go:MulBaseG_Add"])
p("homomorphic key derivation",
  "Point_mulBaseG_add(GenPubkey(a), b) equals GenPubkey((a+b) mod N) for secp256k1 whenever a+b is not 0 mod N (BIP32 child keys of public and private derivation agree).",
  "all a, b", "wallets rely on it for every derived address",
  ["eccset.go:Point_mulBaseG_add","eccset.go:GenPubkey"])
p("point APIs reject malformed input without crashing",
  "Point_add, Point_mul, Point_mulBaseG_add, PointCompress and PointDecompress return an error value rather than panic on every byte string and every curve identifier.",
  "all byte strings, all type identifiers", "crashing inputs are specific malformed encodings",
  ["eccset.go:Point_add","eccset.go:Point_mul","eccset.go:Point_mulBaseG_add"])
p("P-256: sums with x=0 are not infinity",
  "Point_add on secp256r1 returns FAILURE only when the sum is the point at infinity.",
  "all pairs of points of P-256", "the only finite points affected are the two with x=0",
  ["ecdsa.go:Add"])
p("P-256 signatures verify and recover",
  "For secp256r1, under the documented contract of the Go standard library curve, every SUCCESS signature verifies under the matching public key, is canonical, and RecoverPubkey returns that key.",
  "all keys, hashes, nonces and every standard-library implementation meeting its contract", "unbounded",
  ["utils.go:signGeneric","utils.go:verifyGeneric","secp256r1.go:secp256r1_recover_public"])
p("curve orders are the true orders",
  "GetCurveOrder returns, for secp256k1, P-256, SM2 and Pallas, a prime n in big-endian with nG = O and the base point of order exactly n; for ED25519 likewise.",
  "the supported identifiers; all scalars modulo the order", "primality and order are number-theoretic facts",
  ["eccset.go:GetCurveOrder"])
p("unknown identifiers are rejected",
  "Every dispatching function returns its documented wrong-type result for every identifier that is not one of the documented constants and never touches its other arguments.",
  "all 2^32 identifiers", "2^32 identifiers x arguments",
  ["eccset.go","hashset.go","profile.go"])
p("illegal private keys are reported as such",
  "GenPubkey and Signature return ECC_PRIKEY_ILLEGAL for private keys of wrong length or out of range, for every curve.",
  "all curves, all illegal keys", "unbounded keys x curves; error identity across packages",
  ["eccset.go:GenPubkey","eccset.go:Signature","eddsa/ed25519.go","pasta/pasta.go"])
# ---- SM2 ----------------------------------------------------------------
p("SM2 signatures verify",
  "Whenever Signature(d, ID, h, SM2) returns SUCCESS, Verify(GenPubkey(d), ID, h, sig, SM2) returns SUCCESS.",
  "all keys, identities, hashes, random streams", "unbounded; failing combinations are negligible-probability corner cases",
  ["sm2_std.go:sm2_std_sign","sm2_std.go:sm2_std_verify","sm2_std.go:sm2_stdPointAdd"])
p("SM2 signing never crashes",
  "Signature with SM2 returns a code, not a panic, for every legal private key.",
  "all private keys in [1,N-1]", "one bad key in 2^256",
  ["sm2_std.go:sm2_std_sign"])
p("SM2 point addition is the group operation",
  "Point_add on SM2 returns the encoding of P+Q for all curve points P, Q with P+Q finite (including P=Q).",
  "all pairs of points", "unbounded; doubling case",
  ["sm2_std.go:Add","sm2_std.go:sm2_stdPointAdd","ecdsa.go:Add"])
p("SM2 encryption round trip",
  "Decryption(d, Encryption(GenPubkey(d), m)) = m with SUCCESS for every non-empty message.",
  "all keys, messages of every length, random streams", "message lengths and keys unbounded",
  ["sm2_std.go:sm2_std_encrypt","sm2_std.go:sm2_std_decrypt","eccset.go:Encryption","eccset.go:Decryption"])
p("SM2 decryption reports tampering",
  "Decryption returns SUCCESS only when the ciphertext passes its integrity check.",
  "all ciphertexts", "adversarial ciphertexts unbounded",
  ["eccset.go:Decryption","sm2_std.go:sm2_std_decrypt"])
p("SM2 decryption never crashes",
  "Decryption returns a code, not a panic, for ciphertexts of every length.",
  "all byte strings", "all lengths below 97",
  ["sm2_std.go:sm2_std_decrypt"])
p("SM2 key agreement agrees",
  "If initiator and responder run the key-agreement steps honestly, both obtain the same key of the requested length and both confirmation checks succeed.",
  "all key pairs, identities, ephemeral keys and key lengths", "unbounded",
  ["sm2_std.go:sm2_std_ka_initiator_step2","sm2_std.go:sm2_std_ka_responder_step1","sm2_std.go:sm2_std_ka_responder_step2"])
p("SM2 key agreement honours the key length",
  "The agreed key has exactly keylen bytes.",
  "all uint16 key lengths", "65536 lengths; overflow only from 8192 on",
  ["sm2_std.go:ka_kdf"])
p("SM2 recovery recovers",
  "RecoverPubkey(sig||v, h, SM2) returns the signer's public key for signatures made by Signature with SM2.",
  "all keys, hashes, nonces", "unbounded",
  ["sm2_std.go:sm2_std_recover_public"])
p("SM2 field arithmetic is exact",
  "The 9-limb SM2 field addition, subtraction, multiplication, squaring and conversion compute the corresponding operation modulo p without overflow for every pair of in-range operands.",
  "all limb values within the documented bounds", "carry chains fail on extremal limbs only",
  ["sm2_std.go:sm2_stdMul","sm2_std.go:sm2_stdReduceDegree","sm2_std.go:sm2_stdAdd","sm2_std.go:sm2_stdSub"])
# ---- hashes ---------------------------------------------------------------
p("SM3 is the standard function",
  "Hash(m, _, SM3) is the GM/T 0004 SM3 digest of m.",
  "messages of every length", "lengths unbounded, padding boundary cases",
  ["sm3/sm3.go","hashset.go:Hash"])
p("streaming equals one-shot",
  "For SM3, BLAKE-256, BLAKE-512, BLAKE2s, Keccak and SHA3 writing a message in any number of chunks of any sizes gives the same digest as writing it at once.",
  "all messages and all ways of splitting them", "all split patterns",
  ["sm3/sm3.go:Write","blake256/blake256.go:Write","blake512/blake512.go:Write","blake2s/blake2s.go:Write","sha3/sha3.go:Write"])
p("Sum does not disturb the running hash",
  "Calling Sum(b) appends the digest to b and leaves the hash state unchanged, so it can be called repeatedly and interleaved with Write (the hash.Hash contract).",
  "all histories of Write/Sum/Reset calls", "call histories unbounded",
  ["sm3/sm3.go:Sum","blake256/blake256.go:Sum","blake512/blake512.go:Sum","blake2s/blake2s.go:Sum","sha3/sha3.go:Sum"])
p("BLAKE-256/512 match their specification",
  "The digests equal the SHA-3 finalist BLAKE specification (round function, constants, counter and padding rules) for every message.",
  "all messages shorter than 2^64 bits", "padding/counter boundaries, unrolled rounds",
  ["blake256/blake256block.go","blake512/blake512block.go"])
p("Keccak and SHA3 match FIPS 202",
  "The sponge, padding and permutation equal the FIPS 202 definition for every message; Keccak-256/512 differ only in the domain byte.",
  "all messages", "unbounded lengths; unrolled permutation",
  ["sha3/sha3.go","sha3/keccakf.go"])
p("BLAKE2s matches RFC 7693",
  "The BLAKE2s digest equals the RFC 7693 definition for every message, key and digest length 1..32.",
  "all messages, keys up to 32 bytes, digest lengths", "unbounded",
  ["blake2s/blake2s.go","hashset.go:Hash"])
p("composite hashes and HMAC compose as documented",
  "HASH160 = RIPEMD160(SHA256(m)), DOUBLE_SHA256 = SHA256(SHA256(m)), KECCAK256_RIPEMD160 and SHA3_256_RIPEMD160 likewise; Hmac is RFC 2104 HMAC; unknown types give nil.",
  "all messages, keys and type identifiers", "unbounded",
  ["hashset.go:Hash","hashset.go:Hmac"])
# ---- EdDSA -----------------------------------------------------------------
p("Ed25519 (standard) signatures verify",
  "Verify(GenPubkey(k), _, m, Signature(k, _, m), ED25519_NORMAL) = SUCCESS.",
  "all 32-byte keys and all messages", "unbounded",
  ["eddsa/curve25519.go","eddsa/edwards25519/edwards25519.go"])
p("Ed25519 (raw scalar) signatures verify",
  "Verify(GenPubkey(k), _, m, Signature(k, _, m), ED25519) = SUCCESS.",
  "all 32-byte keys, messages and random streams", "unbounded; fails for unclamped keys",
  ["eddsa/ed25519.go"])
p("Ed25519 GenPubkey multiplies by the given scalar",
  "GenPubkey(k, ED25519) is the encoding of kB for every 32-byte scalar k.",
  "all 2^256 scalars", "unbounded; digit recoding overflows above 2^255",
  ["eddsa/ed25519.go:ED25519_genPub","eddsa/edwards25519/edwards25519.go:GeScalarMultBase"])
p("X25519 signatures verify",
  "Verify(GenPubkey(k), _, m, Signature(k, _, m), X25519) = SUCCESS.",
  "all keys and messages, the empty message included", "unbounded",
  ["eddsa/x25519.go"])
p("Edwards/Montgomery conversion round trip",
  "CURVE25519_convert_Ed_to_X(CURVE25519_convert_X_to_Ed(u)) = u for every canonical u other than -1 and the maps are mutually inverse up to the sign bit.",
  "all 2^255 coordinates", "unbounded",
  ["eddsa/convert.go"])
p("GenPubkey does not modify the private key",
  "GenPubkey, Signature and Verify leave their input slices unchanged for every curve.",
  "all curves, all inputs", "side effects invisible to value-comparing tests",
  ["eddsa/curve25519_sha256.go:Keygen","eccset.go:Verify"])
p("Ed25519 field and scalar arithmetic is exact",
  "The 10-limb field operations and the 21-bit-limb scalar multiply-add/reduction compute the operation modulo 2^255-19 and modulo L without overflow for all in-range operands.",
  "all limb values within bounds", "carry chains",
  ["eddsa/edwards25519/edwards25519.go:FeMul","eddsa/edwards25519/edwards25519.go:ScMulAdd","eddsa/edwards25519/edwards25519.go:ScReduce"])
# ---- Pasta -----------------------------------------------------------------
p("Pasta field arithmetic is exact",
  "The 4-limb Montgomery multiplication, squaring, addition, subtraction, negation and conversions of the Pasta fields compute the corresponding operation modulo p (q) and return reduced results.",
  "all operands", "saturated carry chains fail only on extremal values",
  ["pasta/pasta_fp.go","pasta/pasta_fq.go"])
p("Pasta signatures verify",
  "Verify(GenPubkey(d), _, m, Signature(d, _, m), PASTA) = SUCCESS for every private key and well-formed message.",
  "all keys, messages and nonces", "unbounded",
  ["pasta/pasta.go:Sign","pasta/pasta.go:Verify"])
p("Pasta verification binds to the public key",
  "Verify(Q, _, m, sig, PASTA) = SUCCESS only if the Schnorr equation holds for the point encoded by Q, in each accepted encoding of Q (33, 64 and 65 bytes).",
  "all public key encodings, messages and signatures", "adversarial inputs; a key-independent forgery is not found by positive tests",
  ["pasta/pasta.go:Verify","pasta/crypto.go:FromBigEndianBytes"])
p("Pasta point encodings agree",
  "The 64-byte and 65-byte (04-prefixed) encodings of a point denote the same point in every PASTA operation.",
  "all points", "unbounded", ["pasta/crypto.go:FromBigEndianBytes","eccset.go:Point_mulBaseG_add"])
p("Pasta decompression validates its input",
  "PointDecompress(c, PASTA) returns a point only for a prefix 02/03 and an x-coordinate on the curve.",
  "all 33-byte strings", "half of all inputs", ["pasta/crypto.go:FromBigEndianBytes","pasta/crypto.go:Decompress"])
p("Pasta negation negates",
  "AffineNegate(P) is -P.", "all points", "P=-P only at infinity", ["pasta/crypto.go:GroupNegate","pasta/crypto.go:AffineNegate"])
p("Poseidon absorbs its whole input",
  "Absorbing a list of field elements in several updates equals absorbing the concatenation; the digest is the 3-wide Poseidon sponge of the input.",
  "all lists and splits", "unbounded", ["pasta/poseidon.go"])
# ---- BLS ---------------------------------------------------------------------
p("BLS hash-to-field expansion is RFC 9380",
  "The message expansion used for BLS hashing equals expand_message_xmd for all messages, for domain tags up to 255 bytes and output lengths below 255*32.",
  "all messages, tags and lengths", "unbounded", ["bls12_381/bls/hash_to_field.go:expandMsgSHA256XMD"])
p("BLS schemes are domain separated",
  "A message signed under the NUL scheme is never hashed to the curve with the same (message, tag) pair as one signed under the AUG scheme.",
  "all messages and keys", "unbounded", ["eccset.go:Signature","bls12_381/g2.go:Hash"])
p("BLS verification never crashes",
  "Verify with a BLS identifier returns a code, not a panic, for every public key and signature.",
  "all byte strings", "malformed 48-byte keys", ["bls12_381/bls12-381.go:Verify"])
p("BLS12-381 base field arithmetic is exact",
  "The 6-limb Montgomery addition, subtraction, negation, doubling and multiplication (portable implementation) compute the operation modulo q for all reduced operands.",
  "all reduced operands", "carry chains", ["bls12_381/bls/arithmetic_fallback.go"])
# ---- appended ----------------------------------------------------------------
p("off-curve public keys are rejected",
  "Verify(Q, _, h, sig, SECP256K1) returns FAILURE for every 64-byte Q whose coordinates do not satisfy the curve equation.",
  "all 64-byte strings, hashes and signatures", "adversarial keys on another curve (invalid-curve inputs)",
  ["ecdsa.go:verify","utils.go:verifyGeneric"])
p("P-256 keys, verification, compression and point functions",
  "Under the contract of the Go standard library curve, the secp256r1 key generation, verification, compression, scalar multiplication and base-point-multiply-and-add functions compute the ECDSA and group operations, and key derivation commutes with addition of private keys.",
  "all keys, points, scalars, hashes and signatures; every standard-library implementation meeting its contract", "unbounded inputs",
  ["eccset.go:GenPubkey","eccset.go:Point_mul","eccset.go:Point_mulBaseG_add","secp256r1.go","utils.go"])
p("SM2 point multiplication is the group operation",
  "Point_mul(P, k, SM2) returns the encoding of kP for every curve point P and 32-byte scalar k with kP finite.",
  "all curve points, all 32-byte scalars", "the field arithmetic goes wrong on a thin set of operands no test vector meets",
  ["eccset.go:Point_mul","sm2_std.go","sm2_std.go:sm2_stdReduceDegree"])
p("SM2 verification is exactly the SM2 equation",
  "Verify(Q, ID, h, (r,s), SM2) for a curve point Q returns SUCCESS iff the identity is admissible and (r,s) satisfies the verification equation of GB/T 32918.2 for the digest derived from ID, Q and h.",
  "all curve points, identities, hashes, signatures", "soundness cannot be tested",
  ["eccset.go:Verify","sm2_std.go"])
p("SM2 public key is [d]G",
  "GenPubkey(d, SM2) returns the encoding of dG with SUCCESS for each 32-byte d with 1 <= d < N, and ECC_PRIKEY_ILLEGAL for every other byte string.",
  "all byte strings", "2^256 keys", ["eccset.go:GenPubkey","sm2_std.go"])
p("SM2 compression round trip",
  "PointDecompress(PointCompress(P)) = 04||P for every finite SM2 curve point, given with or without its tag byte.",
  "all finite curve points", "square roots modulo a 256-bit prime over all points", ["eccset.go:PointCompress","eccset.go:PointDecompress","sm2_std.go"])
p("a cloned SHAKE continues like the original",
  "Clone() of a SHAKE128 or SHAKE256 state, taken after any Writes and Reads, yields the same remaining output as the original.",
  "all messages, all sequences of Reads before the clone", "histories of reads; the failure depends on the position in the block", ["sha3/sha3.go:clone","sha3/shake.go:Clone"])
p("Hash never crashes and honours the digest length",
  "Hash(m, len, type) returns for every message, length and type, and a BLAKE2s digest has the requested length.",
  "all messages, all 16-bit lengths, all types", "65536 lengths times all types and messages", ["hashset.go:Hash"])
p("Ed25519 Verify accepts exactly the signatures of the equation",
  "Verify(pub, _, m, sig, ED25519 or ED25519_NORMAL) = SUCCESS if and only if pub has 32 bytes and decodes to a curve point A, sig = R || S has 64 bytes with S < 2^253, and the encoding of [S]B - [H(R,pub,m) mod L]A is R; otherwise it returns FAILURE.",
  "every public key, message and signature byte string",
  "soundness and completeness of verification range over all signatures and keys, and the double-scalar multiplication has data-dependent branches",
  ["eddsa/ed25519.go:ED25519_verify","eddsa/curve25519.go:CURVE25519_verify","eddsa/edwards25519/edwards25519.go:GeDoubleScalarMultVartime"])
p("Ed25519 signatures cannot be altered",
  "If Verify accepts a signature R || S for a key and a message, it does not accept a different string R || S' for them.",
  "every key, message and accepted signature",
  "needs the order of the base point and the range check for all S",
  ["eddsa/curve25519.go:CURVE25519_verify"])
p("Ed25519 point addition",
  "Point_add(p, q, ED25519) is the encoding of the sum of the points p and q decode to, and Point_mulBaseG_add(p, k, ED25519) that of p + kB, with the neutral element reported as such; undecodable points are rejected.",
  "every pair of encodings and every 32-byte scalar",
  "all points, including inverses, doubling and small-order points",
  ["eddsa/ed25519.go:ScalarMultBaseAdd","eddsa/ed25519.go:Point_add"])
p("SM2 encryption is the standard's",
  "Every ciphertext Encryption(Q, m, SM2) returns with SUCCESS is 04 || kG || SM3(x2 || m || y2) || (m xor KDF(x2 || y2, |m|)) for some k in 1..N-1 with (x2, y2) = kQ and a derived key that is not all zero, KDF being the SM3 based function of GB/T 32918.4 with a counter starting at 1.",
  "every public key, message and random stream",
  "a round-trip test cannot see a deviation both directions share; interoperability ranges over all messages and nonces",
  ["eccset.go:Encryption","sm2_std.go:sm2_std_encrypt","sm2_std.go:kdf"])
p("SM2 key agreement is the standard's",
  "The agreed key is KDF(xU || yU || ZA || ZB, keylen) and the confirmation values are SM3(02 or 03 || yU || SM3(xU || ZA || ZB || RA || RB)), with U the point GB/T 32918.3 defines from either side's secrets.",
  "all identities, keys, temporary keys and key lengths below 8192",
  "a test where both sides run this library cannot see a shared deviation",
  ["eccset.go:KeyAgreement_responder_ElGamal_step1","sm2_std.go:ka_kdf","sm2_std.go:ka_check"])
p("Pasta public keys",
  "GenPubkey(d, PASTA) returns SUCCESS and the 64-byte encoding of dG exactly for the 32-byte keys d below 2^254, G being the Pallas base point (1, y), and FAILURE otherwise.",
  "every private key byte string", "all 2^254 scalars", ["pasta/pasta.go:GenPublicKey","eccset.go:GenPubkey"])
p("Pasta point operations",
  "Point_add, Point_mul, Point_mulBaseG and Point_mulBaseG_add with PASTA return the encodings of P+Q, kP, kG and P+kG for every pair of curve points (equal, opposite and infinite ones included) and every 32-byte scalar, in each encoding they decode (65-byte arguments of Point_mulBaseG_add excepted).",
  "all curve points, encodings and scalars", "the exceptional cases of the addition formulas are unreachable by random tests",
  ["pasta/pasta.go:PointAdd","pasta/pasta.go:PointMul","pasta/crypto.go:GroupAdd","pasta/crypto.go:GroupScalarMul"])
p("Pasta functions always return",
  "No exported function with PASTA panics or loops forever on any byte strings (square roots always terminate), apart from drawing nonces that are all zero.",
  "all keys, points, scalars and signatures", "termination of Tonelli-Shanks ranges over all field elements",
  ["pasta/crypto.go:FieldSqrt","pasta/pasta.go:Verify","eccset.go:Point_add"])
p("BLS12-381 squaring is exact",
  "On every platform the squaring of base field elements gives the square modulo the field prime for all reduced operands.",
  "all reduced operands",
  "a carry that only rare operands produce",
  ["bls12_381/bls/arithmetic_fallback.go:square"])
p("BLS12-381 assembly arithmetic is exact",
  "On amd64 the assembly addition, subtraction, negation, doubling and multiplication of base field elements give the operation modulo the field prime for all reduced operands, whatever registers, stack and flags hold on entry, with and without the ADX instructions.",
  "all reduced operands and all machine states at entry",
  "carry flags that only rare operands set; probability around 2^-60 per multiplication",
  ["bls12_381/bls/arithmetic_x86.s", "bls12_381/bls/arithmetic_decl.go"])
p("BLS12-381 assembly keeps inside its stack frame",
  "Every assembly routine only touches stack bytes inside the frame its TEXT directive declares.",
  "all routines and instructions",
  "the byte above the frame is often unused, so an overrun shows only with particular callers",
  ["bls12_381/bls/arithmetic_x86.s"])
p("BLS verification depends on the message",
  "With a BLS identifier no public key and signature pair that Verify accepts for one message is accepted for every message; in particular the point at infinity is not accepted as a public key.",
  "all public keys, signatures and messages",
  "degenerate encodings of the identity",
  ["bls12_381/bls12-381.go:Verify", "bls12_381/group.go:ValidatePairing", "bls12_381/bls/pairing.go:AddPair"])
p("BLS signing binds the message",
  "bls12_381.Sign returns signatures that depend on the message, whatever the message starts with.",
  "all keys and messages",
  "messages without the two known tags",
  ["bls12_381/bls12-381.go:Sign", "bls12_381/g2.go:Hash"])
p("CURVE25519_SHA256 public keys are X25519 keys",
  "With the CURVE25519_SHA256 identifier GenPubkey returns, for every 32-byte private key, the 32-byte little-endian u coordinate of the clamped key times the base point (RFC 7748); other lengths are refused.",
  "all byte strings as private keys",
  "the ladder runs through 255 secret bits; the packing code has rare carry cases",
  ["eddsa/curve25519_sha256.go:CURVE25519_sha256_genPub","eddsa/curve25519_sha256.go:core","eccset.go:GenPubkey"])
p("CURVE25519_SHA256 leaves the private key alone",
  "With the CURVE25519_SHA256 identifier GenPubkey and Signature leave the private key in the caller's slice as it was.",
  "all private keys and messages",
  "only a caller that compares its key before and after sees the write; clamped keys hide it",
  ["eddsa/curve25519_sha256.go:Keygen","eddsa/curve25519_sha256.go:clamp"])
p("CURVE25519_SHA256 accepts canonical encodings only",
  "With the CURVE25519_SHA256 identifier Verify answers success only for signatures of 64 bytes whose first half is below the group order, public keys of 32 bytes below the field prime, and non-empty messages.",
  "all public keys, messages and signatures",
  "all encodings of a residue cannot be enumerated",
  ["eddsa/curve25519_sha256.go:CURVE25519_sha256_verify","eddsa/curve25519_sha256.go:IsCanonicalSignature","eddsa/curve25519_sha256.go:IsCanonicalPublicKey"])
p("CURVE25519_SHA256 signatures are EC-KCDSA signatures",
  "With the CURVE25519_SHA256 identifier Signature ends for every 32-byte private key and every message, and returns (v, h) with h = SHA256(SHA256(m) || u(xB)) and v = (x - h) s modulo the group order, where s is the inverse of the private exponent of even w coordinate and x the clamped SHA256(SHA256(m) || s).",
  "all 32-byte private keys and all messages, for every hash function with 32-byte results",
  "the extended Euclidean algorithm and the long division on bytes have rare branches; the sign of the exponent depends on the key",
  ["eddsa/curve25519_sha256.go:CURVE25519_sha256_sign","eddsa/curve25519_sha256.go:Sign","eddsa/curve25519_sha256.go:egcd32","eddsa/curve25519_sha256.go:divmod"])
p("CURVE25519_SHA256 verification decides the verification equation",
  "With the CURVE25519_SHA256 identifier Verify answers success for a public key, a non-empty message and a canonical signature (v, h) exactly when h = SHA256(SHA256(m) || u(vA + hB)), A being the point of the public key with even w coordinate.",
  "all public keys of the prime-order subgroup, messages and signatures",
  "the chain of 256 differential additions has sixteen cases per bit and depends on two scalars",
  ["eddsa/curve25519_sha256.go:CURVE25519_sha256_verify","eddsa/curve25519_sha256.go:Verify"])
p("CURVE25519_SHA256 signatures verify",
  "With the CURVE25519_SHA256 identifier, what Signature returns for a private key and a message is accepted by Verify under the public key GenPubkey returns for it.",
  "all 32-byte private keys and all messages",
  "keys and nonces cannot be enumerated; the empty message and single exceptional keys are not in any test",
  ["eddsa/curve25519_sha256.go:CURVE25519_sha256_sign","eddsa/curve25519_sha256.go:CURVE25519_sha256_verify","eccset.go:Signature","eccset.go:Verify"])
p("Keccak assembly computes the Keccak permutation",
  "The permutation used by the amd64 build of package sha3 equals Keccak-f[1600] of FIPS 202, hence the one of every other build, for every state and whatever registers and stack held before; it reads and writes nothing but the caller's state and its own frame.",
  "all states of 25 64-bit words, all register and stack contents",
  "the 1600-bit state space cannot be enumerated, and a bug can depend on stale registers or stack words",
  ["sha3/keccakf_amd64.s:keccakF1600","sha3/keccakf_amd64.go:keccakF1600"])
p("A BLS signature has one form",
  "In builds without the amd64 assembly, a 96-byte string passes AggregateSignatures as a single signature, and is returned unchanged, exactly if it is the compressed encoding of a point of y^2 = x^3 + 4(1+i) whose order divides r: x below p in both halves, the sign bit that of y, infinity as c000... only. All other strings are refused by AggregateSignatures and never accepted by Verify. Two points have two encodings.",
  "all strings of 96 bytes, both identifiers, every hash and pairing",
  "2^768 strings; the decoder takes a square root in a quadratic extension and multiplies by the group order",
  ["bls12_381/g2.go:UnmarshalBinary","bls12_381/bls12-381.go:AggregateSignatures","eccset.go:AggregateSignatures"])
p("BLS aggregation adds points",
  "AggregateSignatures fails exactly if one of the signatures, cut to 96 bytes, is not an encoding of a point of G2; otherwise it returns the encoding of the sum of the points. So the order of the signatures and aggregating in stages do not matter.",
  "all non-empty lists of byte strings",
  "lists of every length and every order; equal and opposite points take other branches of the addition",
  ["bls12_381/bls12-381.go:AggregateSignatures","eccset.go:AggregateSignatures","bls12_381/g2.go:Add"])
p("BLS verification accepts one signature per key and message",
  "If the public key is k times the generator and the message is hashed to the point H, Verify answers success for the encoding of k H and for no other byte string.",
  "all keys, messages and signatures, both identifiers, any non-degenerate bilinear pairing",
  "soundness is about all signatures that are not the right one",
  ["bls12_381/bls12-381.go:Verify","bls12_381/group.go:ValidatePairing","eccset.go:Verify"])
p("BLS signatures verify, alone and aggregated",
  "Signature returns the encoding of the private key times the hashed message, which Verify accepts under the public key; the aggregate of signatures of one message under several keys is accepted under the sum of the keys (NUL identifier).",
  "all 32-byte private keys below the group order, all messages, all lists of keys",
  "keys and messages cannot be enumerated",
  ["bls12_381/bls12-381.go:Sign","bls12_381/bls12-381.go:Verify","bls12_381/bls12-381.go:AggregateSignatures","eccset.go:Signature"])
p("BLS hash_to_field follows RFC 9380",
  "For every message, every domain separation tag of at most 255 bytes and every count from 1 to 127, hashing to the field gives that many elements, element i being the i-th group of 64 bytes of expand_message_xmd as a big-endian number modulo p, in portable builds too.",
  "all messages, tags, counts and 32-byte hash functions",
  "the message and the tag have any length, and the reduction of 512 bits takes a carry path per value",
  ["bls12_381/bls/hash_to_field.go:hashToFpXMDSHA256","bls12_381/bls/hash_to_field.go:expandMsgSHA256XMD","bls12_381/bls/fp.go:from64Bytes"])
p("The non-uniform encoding to G2 follows RFC 9380",
  "EncodeToCurve of G2 never fails for tags of at most 255 bytes; it returns a point of the subgroup of order r, namely h_eff times the isogeny of the simplified SWU map of the hashed field element, as in RFC 9380 for BLS12381G2_XMD:SHA-256_SSWU_NU_.",
  "all messages, tags and 32-byte hash functions; all elements of F_p(i)",
  "2^762 field elements; whether the first or second candidate is a square and the sign of y split them into cases, and the element 0 is never hit by a test",
  ["bls12_381/bls/g2.go:EncodeToCurve","bls12_381/bls/swu.go:swuMapG2","bls12_381/bls/isogeny.go:isogenyMapG2","bls12_381/bls/g2.go:ClearCofactor"])
p("Hashing to G2 follows RFC 9380",
  "HashToCurve of G2, which Signature and Verify use for messages, returns h_eff times the isogeny of the sum of the two mapped field elements, a point of the subgroup of order r, as in RFC 9380 for BLS12381G2_XMD:SHA-256_SSWU_RO_.",
  "all messages, tags and 32-byte hash functions",
  "two field elements mapped to one point or to opposite points take other branches of the addition and cannot be found by tests",
  ["bls12_381/bls/g2.go:HashToCurve","bls12_381/bls/swu.go:swuMapG2","bls12_381/bls/isogeny.go:isogenyMapG2","bls12_381/bls/hash_to_field.go:hashToFpXMDSHA256"])
p("BLS signatures are those of the IETF suites",
  "With S the RFC 9380 hash of the message (NUL) or of public key and message (AUG) under the tag of the suite, Signature returns the encoding of k S, and Verify under the public key k G accepts this byte string and no other.",
  "all 32-byte private keys below the group order, all messages, both identifiers",
  "interoperability and uniqueness concern all keys, messages and candidate signatures",
  ["bls12_381/bls12-381.go:Sign","bls12_381/bls12-381.go:Verify","bls12_381/bls/g2.go:HashToCurve","eccset.go:Signature","eccset.go:Verify"])
p("BLS target group: arithmetic and encoding",
  "Add, Sub and Mul of GT are those of the field of p^12 elements; IsValid accepts exactly the elements whose order divides r; on those Square and Exp give the powers and stay in the group; Inverse gives the inverse. ToBytes writes the twelve coefficients, and FromBytes accepts exactly the 576-byte encodings of the elements whose order divides r and gives the element back.",
  "all elements of the field of p^12 elements, all non-negative exponents, all byte strings",
  "2^4572 elements, and a formula that holds on a subgroup only agrees with the square on everything a test takes from a pairing",
  ["bls12_381/bls/gt.go:IsValid","bls12_381/bls/gt.go:FromBytes","bls12_381/bls/gt.go:ToBytes","bls12_381/bls/gt.go:Square","bls12_381/bls/gt.go:Exp","bls12_381/bls/fp12.go:mul","bls12_381/bls/fp12.go:cyclotomicSquare","bls12_381/bls/fp6.go:mul"])
p("The pairing engine computes the optimal ate pairing",
  "Result returns the product over the added pairs of the optimal ate pairing (Miller's algorithm for x = -0xd201000000010000 with affine lines, then the power 3 (p^12 - 1) / r), Check tells whether this product is one, and the result is an element of GT that IsValid and FromBytes accept.",
  "all lists of pairs of points of G1 and G2",
  "the points and the number of pairs are unbounded; the projective line formulas, the order of the coefficients and the final exponentiation must be right at every step",
  ["bls12_381/bls/pairing.go:Result","bls12_381/bls/pairing.go:Check","bls12_381/bls/pairing.go:millerLoop","bls12_381/bls/pairing.go:doublingStep","bls12_381/bls/pairing.go:additionStep","bls12_381/bls/pairing.go:finalExp","bls12_381/bls/fp12.go:frobeniusMapAssign"])
p("Pairing products: concatenation, order, cancellation",
  "Result of two lists of pairs joined is the product of the two results; the order of the pairs does not matter; a pair with -P cancels the pair with P, so that Check of (P, Q) and (-P', Q') tells whether the pairings of (P, Q) and (P', Q') agree.",
  "all lists of pairs of points; the first also for coordinates off the curve",
  "relations between runs on lists of any length",
  ["bls12_381/bls/pairing.go:AddPair","bls12_381/bls/pairing.go:Result","bls12_381/bls/pairing.go:Check","bls12_381/group.go:ValidatePairing"])
p("BLS verification is the pairing equation",
  "Verify accepts a signature if and only if the key is the compressed encoding of a point A of G1, the signature that of a point S of G2, and the ate pairings of (generator, S) and (A, hashed message) are equal.",
  "all keys, messages and signatures, both identifiers, every hash to a point of G2 other than infinity",
  "soundness is about all strings a forger may send",
  ["bls12_381/bls12-381.go:Verify","bls12_381/group.go:ValidatePairing","bls12_381/bls/pairing.go:Check","eccset.go:Verify"])
p("SHA-3 input and output do not depend on the platform",
  "For every hash object of package sha3 a block of input is absorbed, and a block of output written, in the same way by the code with unsafe pointers (amd64, 386, ppc64le) as by the portable code; the result does not depend on the memory behind the block.",
  "all hash objects, states, blocks and memory contents", "the bytes behind a slice differ from run to run",
  ["sha3/xor_unaligned.go:xorInUnaligned","sha3/xor_unaligned.go:copyOutUnaligned","sha3/xor_generic.go:xorInGeneric","sha3/xor_generic.go:copyOutGeneric"])
p("BLS target group: powers by any integer",
  "Exp of GT with an element of the group and any big integer s, negative or not, gives the s-th power of the element.",
  "all elements IsValid accepts, all integers", "negative exponents are read through the bits of a two's complement of unbounded length",
  ["bls12_381/bls/gt.go:Exp","bls12_381/bls/fp12.go:cyclotomicExp"])
p("BLS target group: cyclic of order r",
  "GT has exactly r elements: FromBytes accepts exactly r byte strings. Every element other than one generates the group: each element is its power by exactly one exponent below r. Two exponents that are not negative give the same power of such an element exactly when they agree modulo r.",
  "all elements IsValid accepts, all non-negative exponents, all byte strings", "the group has about 2^255 elements and lies in a field of about 2^4570",
  ["bls12_381/bls/gt.go:Exp","bls12_381/bls/gt.go:FromBytes","bls12_381/bls/gt.go:IsValid"])
p("BLS: each public key belongs to one secret key",
  "Every byte string that is decoded as a public key is the encoding of d times the generator for exactly one secret key d below r, so exactly r strings are public keys; Verify accepts a key and a signature exactly if they are those of one d.",
  "all byte strings, messages and signatures", "the keys are too many to enumerate and a key without a secret key cannot be recognised",
  ["bls12_381/bls12-381.go:Verify","bls12_381/bls/g1.go:FromCompressed","eccset.go:Verify"])
p("BLS: one public key for each signature of a message",
  "Exactly r strings of 96 bytes are signatures (those AggregateSignatures takes). In the basic scheme each of them is, for a given message, accepted under exactly one public key.",
  "all 96-byte strings, messages and public keys", "a second key for a signature would be one among 2^384 strings",
  ["bls12_381/bls12-381.go:Verify","bls12_381/bls12-381.go:AggregateSignatures","bls12_381/bls/g2.go:FromCompressed","eccset.go:Verify"])
p("Each curve point is the public key of exactly one private key",
  "For secp256k1, secp256r1 and PASTA: every point of the curve but infinity is what GenPubkey returns for exactly one private key.",
  "all points of the three curves, all byte strings as key", "the curves have about 2^256 points",
  ["eccset.go:GenPubkey","ecdsa.go:genPublicKey","pasta/pasta.go:GenPublicKey"])
p("ECDSA: two to four public keys for each signature",
  "For secp256k1 and secp256r1: whatever the hash and the signature, Verify accepts them under at most four points of the curve as public key. If it accepts them under one point, it accepts them under a second: a signature does not determine the key.",
  "all hashes, signatures and sets of public keys on the curve", "a further key would be one among about 2^256",
  ["eccset.go:Verify","ecdsa.go:verify"])
p("ECDSA signatures cannot be altered",
  "For secp256k1 and secp256r1: for a public key on the curve, a hash and a first half r, Verify accepts at most one second half, so that an accepted signature cannot be turned into another one with the same r.",
  "all keys on the curve, hashes and signatures", "an altered signature is one among 2^256",
  ["eccset.go:Verify","ecdsa.go:verify"])
with open('/verif/properties.jsonl','w') as f:
    for x in P: f.write(json.dumps(x,ensure_ascii=False)+"\n")
print(len(P))
