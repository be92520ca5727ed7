# Formal model of blocktree/go-owcrypt in Rocq (Coq 8.16.1)

## 1. Layout

`rocq/theories/` holds five kinds of files.

* Mathematics that does not mention the code: `Fp` (prime fields, Fermat, square
  roots), `Pock`/`Primes` (Pocklington certificates), `Mont63` (fast modular
  arithmetic on 63-bit integers, proved), `Weier`/`Jac`/`EC` (short Weierstrass
  group law, associativity, Jacobian formulas), `Edw`/`EdCurve` (twisted Edwards
  law), `Group`, `AllOrder`/`OrderCheck` (curve orders), `Curves` (parameters).
* `Spec*`: small specifications written from the standards (ECDSA/SEC 1, SM2, SM3,
  BLAKE, FIPS 202, RFC 8032, RFC 9380, Mina/Pasta, BLS12-381).
* `Model*`: Gallina transcription of the Go code and of the amd64 assembly, one
  definition per function, each with a comment citing file and lines. No proofs.
* `Proof*`: lemmas about the model.
* `Props*`: the property theorems, each followed by `Print Assumptions` and by an
  `Example` exhibiting a concrete instance meeting the hypotheses.

Generated files (mechanical translation of unrolled code: field multiplications,
hash block functions, assembly listings, tables) carry a header naming the
generator in `tools/`; generators read /repo as text.

## 2. Modelling conventions

* A Go `[]byte` is `list Z` with all elements in [0,256) (`bytes_ok`); where the
  code distinguishes nil from empty, the argument is an `option (list Z)`.
* `append` is concatenation and slices are values; code whose behaviour depends on
  two slices sharing memory is modelled separately with an explicit memory
  (`ModelSlice`, property C43).
* `*big.Int` is `Z`; `Mod` is Euclidean (`Z.modulo` with positive modulus);
  `ModInverse` returns an option (`None` models nil); `ModSqrt` returns an option.
* Machine integers are `Z` with explicit wrap (`mod 2^32`, `mod 2^64`, signed wrap
  for int32/int64). No overflow is assumed away. The x86 model has registers,
  CF/OF and a stack frame; registers and stack a routine does not write hold
  arbitrary values.
* Errors are values; a run-time panic is an explicit outcome (`Panic`).
* Loops are structural recursion on lists or fuel-bounded iteration; unbounded
  retry loops (nonce generation) take the stream of random blocks as an argument,
  and `None` means "not finished within the fuel".
* External code is a Section variable or a record field (never an axiom): the
  random source, the AES-CTR generator, SHA-2, RIPEMD-160, MD4/5, BLAKE2b, JSON
  decoding, the packages g1pubs and kyber, the pairing, and for P-256 the Go
  standard library curve. Theorems quantify over all of them, with the contract
  they need as an explicit hypothesis; an instance satisfying it is given.
* "Refuted" theorems prove the negation of the property as stated, for concrete
  inputs or for a whole class of inputs; the `_partial` theorem beside them says
  for which inputs the property does hold.

## 3. What is modelled

| code | model | remarks |
|---|---|---|
| eccset.go | ModelApi | every exported function of the file |
| ecdsa.go, utils.go, secp256k1.go | ModelECDSA, ModelK1 | generic ECDSA over a curve record; P-256 through the contract of crypto/elliptic |
| sm2_std.go | ModelSM2F/P/S | 9-limb field with its tables, group, signature, encryption, key agreement |
| sm3, hashset.go | ModelSM3, ModelHash | |
| blake256, blake512, blake2s | ModelBlake(Code) | all block functions |
| sha3 | ModelSha3(Code), ModelSha3X, ModelKeccakAsm, ModelKeccakX | portable keccakF and keccakf_amd64.s (generated from the text with its macros expanded); ModelSha3X: xor_unaligned.go with the memory behind the slice |
| eddsa/* | ModelEd, ModelEdCode, ModelEdDSA, ModelEdPkg | edwards25519 field, group, scalar code, tables |
| eddsa/curve25519_sha256.go | ModelCsha, ModelCshaCode | all of it: field code, Montgomery ladder, byte arithmetic, Sign, Verify |
| pasta/* | ModelPasta, ModelPastaCode, ModelW64 | Fp/Fq Montgomery code, group, Schnorr, Poseidon, point API; JSON decoding is external |
| bls12_381/bls/arithmetic_fallback.go | ModelBlsF | |
| bls12_381/bls/arithmetic_x86.s | ModelX86, ModelBlsAsm | instruction by instruction |
| bls12_381/bls/{field_element,fp,fp2,g1,g2,hash_to_field,swu,isogeny}.go, bls12_381/*.go | ModelBls, ModelBlsEnc | |
| bls12_381/bls/{fp6,fp12,gt,pairing}.go | ModelBlsGT, ModelBlsExp | tower field, GT, Miller loop, final exponentiation; pairs are values; ModelBlsExp: the loop of GT.Exp for any big integer |

In the theorems C53-C91 on BLS the check of a product of pairings is an oracle; C93
shows that the pairing engine answers it for the optimal ate pairing.

Not modelled: the external packages, generation of
the key material (Keygen with crypto/rand is an oracle), test files.

Not expressible in this model: constant-time behaviour, entropy quality,
computational unforgeability, goroutine schedules (the library has no shared
mutable state after `init`).

## 4. How the properties are proved

* secp256k1, P-256, SM2 (C01-C29, C56-C61, C67, C68): the code's Jacobian formulas
  refine the affine group law over F_p; the group law is proved once for all short
  Weierstrass curves; primality of p and n by Pocklington certificates checked by
  computation; n G = O by computation; that the curve has exactly n points (so that
  every point has order n) by exhibiting a point of order n and bounding the number
  of points.
* SM2 field (C30): the limb code is translated to polynomials over the limbs and the
  bounds of every intermediate word are checked by a verified interval analysis;
  where the bounds fail, concrete operands refute the property.
* Hashes (C31-C37, C62, C63, C96): streaming invariant (state after a list of writes =
  fold over the full blocks plus the buffered tail); generated block functions are
  proved equal to loop-form specifications.
* Ed25519 (C38-C42, C44, C64-C66): completeness and associativity of the Edwards
  law, verified straight-line programs for the 10-limb field, recoding lemmas.
* Discrete logarithms (C99-C101): a group of prime exponent n with fewer than n^2
  elements is cyclic (`CycGroup`, `EcCyc`).
* Keys and forms of a signature (C102, C103): the key determines the point R of the verification
  and conversely; at most four points have the x-coordinate r modulo n (`EcFour`, `EcAlter`).
* Pasta (C45-C51, C69-C71): Montgomery chains by a verified word-polynomial
  checker, shared Weierstrass law, square roots by Tonelli-Shanks invariant.
* BLS12-381 (C52-C55, C72-C76, C84-C95, C97-C100): the primality of p by Goldwasser-Kilian;
  Kaliski inversion, square roots and the two codecs as a representation of the
  shared Weierstrass law over F_p and F_p(i), for any build exact in all routines
  but squaring; the pairing is a parameter with the bilinearity it must have;
  the maps of RFC 9380 by algebra over a generic field (`IsoAlg`: the isogeny sends
  E1 to E2, its kernel is not rational, a non-square first candidate makes the second
  one a square) and by the exponent of the group of the twist, got from points of
  known prime orders and a bound on the number of points (`BlsTors`, `BlsExp`), so that
  clearing the cofactor ends in the subgroup for every point; the isogeny as a
  homomorphism by symmetric functions of the three points of a line (`IsoHom`);
  constants of F_p(i) decided by reflection (`BlsEx`);
  the tower over F_p(i) proved a field (1 + i is no square and no cube, `BlsTower`),
  Frobenius as the p-th power, the final exponentiation by integer identities between
  exponents, the line functions by algebra over a generic field (`AteAlg`) up to factors
  of F_p(i), which the final exponentiation takes to one; the order of GT by counting the
  roots of x^r - 1 and of x(x^k - 1) in the field (`BlsGtNontriv`);
  G1 as a cyclic group because r^2 points have no room in 48 bytes (`CycGroup`),
  G2 because the twist has a point of another large prime order (`BlsG2Cyc`);
  carry-chain lemmas for the Go code, a
  small x86 semantics with a verified taint analysis for the assembly,
  parametricity in the field build, hash function, pairing and external packages.

## 5. Properties, theorems and gaps

The table is generated from `properties.jsonl` and `MANIFEST.json`.

@TABLE@

## 6. Trusted base

* Coq's kernel, including `vm_compute` conversion (`coqchk` re-checks the compiled
  files without the virtual machine). No kernel check is switched off.
* The transcription of Go and assembly into the `Model*` files, and the semantics
  stated in section 2.
* The `Spec*` files, as readings of the standards.

`Print Assumptions` reports for the theorems named in the manifest one of two sets.

*Closed under the global context* (no axiom at all):

@CLOSED@

*Primitive 63-bit integers of the standard library*: the types and operations
@PRIMS@ and their specifications
@SPECS@ (module Coq.Numbers.Cyclic.Int63.Uint63). They enter through `Mont63`, which is
used to check primality certificates and orders of points:

@INT@

No other axiom is used by any theorem. Standard-library modules that the build loads
may declare further axioms; no theorem depends on them.
