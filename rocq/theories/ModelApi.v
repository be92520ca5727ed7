(** Model of /repo/eccset.go: the exported functions and their dispatch on the
    curve identifier.  The implementations behind the curves are a record
    [backends]; the theorems about one curve quantify over the implementations
    of the others. *)
Require Import ZArith List Bool.
Require Import Verif.Base Verif.ModelK1 Verif.ModelECDSA Verif.ModelSM2F Verif.ModelSM2P Verif.ModelSM2S.
Import ListNotations.
Open Scope Z_scope.

(* profile.go, curve identifiers *)
Definition ECC_CURVE_SECP256K1 := 0xECC00000.
Definition ECC_CURVE_SECP256R1 := 0xECC00001.
Definition ECC_CURVE_SM2_STANDARD := 0xECC00002.
Definition ECC_CURVE_ED25519_NORMAL := 0xECC00003.
Definition ECC_CURVE_ED25519 := 0xECC00004.
Definition ECC_CURVE_X25519 := 0xECC00005.
Definition ECC_CURVE_CURVE25519_SHA256 := 0xECC00006.
Definition ECC_CURVE_BLS_NUL := 0xECC00007.
Definition ECC_CURVE_BLS_AUG := 0xECC00008.
Definition ECC_CURVE_PASTA := 0xECC00009.

(* profile.go, return codes *)
Definition SUCCESS := 1.
Definition FAILURE := 0.
Definition ECC_PRIKEY_ILLEGAL := 0xE000.
Definition ECC_PUBKEY_ILLEGAL := 0xE001.
Definition ECC_WRONG_TYPE := 0xE002.
Definition MESSAGE_ILLEGAL := 0xE007.

(* profile.go, the BLS domain separation tags, as bytes *)
Definition BASIC_SCHEME_DST : bytes :=   (* "BLS_SIG_BLS12381G2_XMD:SHA-256_SSWU_RO_NUL_" *)
  [66;76;83;95;83;73;71;95;66;76;83;49;50;51;56;49;71;50;95;88;77;68;58;83;72;65;45;50;53;54;95;
   83;83;87;85;95;82;79;95;78;85;76;95].
Definition AUG_SCHEME_DST : bytes :=     (* "BLS_SIG_BLS12381G2_XMD:SHA-256_SSWU_RO_AUG_" *)
  [66;76;83;95;83;73;71;95;66;76;83;49;50;51;56;49;71;50;95;88;77;68;58;83;72;65;45;50;53;54;95;
   83;83;87;85;95;82;79;95;65;85;71;95].

(** A randomised call: [None] means that a retry loop has not finished within
    the fuel given to it. *)
Definition run (A : Type) := option (outcome A).

(** Key generation, signing and verification of one package. *)
Record sigpkg := {
  sp_genpub : bytes -> outcome (result bytes);
  sp_sign : bytes -> bytes -> run (result bytes);
  sp_verify : bytes -> bytes -> bytes -> outcome bool }.

Record backends := {
  bk_drbg : bytes -> nat -> bytes;      (* SHA-512 / AES-CTR generator of utils.go *)
  bk_entropy : option bytes;            (* what crypto/rand delivers to a signature *)
  bk_rand : nat -> option bytes;        (* the further reads of crypto/rand; None: error *)
  bk_fuel : nat;
  bk_r1 : ecurve;
  bk_ed_normal : sigpkg; bk_ed : sigpkg; bk_x : sigpkg; bk_sha256 : sigpkg;
  bk_ed_baseadd : bytes -> bytes -> bytes * bool;
  bk_ed_add : bytes -> bytes -> bytes * bool;
  bk_bls : sigpkg;
  bk_bls_baseadd : bytes -> bytes -> outcome (option bytes * bool);
  bk_bls_aggregate : list bytes -> outcome (option bytes);
  bk_pasta : sigpkg;
  bk_pasta_baseadd : bytes -> bytes -> outcome (option bytes);
  bk_pasta_add : bytes -> bytes -> outcome (option bytes);
  bk_pasta_mul : bytes -> bytes -> outcome (option bytes);
  bk_pasta_decompress : bytes -> outcome (option bytes) }.

Section Api.
Variable B : backends.

(* eccset.go:59-69 *)
Definition genpub_ret (o : outcome (result bytes)) : outcome (option bytes * Z) :=
  match o with
  | Panic => Panic
  | Ret (Ok pub) => Ret (Some pub, SUCCESS)
  | Ret (Err ErrPrivateKeyIllegal) => Ret (None, ECC_PRIKEY_ILLEGAL)
  | Ret (Err ErrUnknownCurve) => Ret (None, ECC_WRONG_TYPE)
  | Ret (Err _) => Ret (None, FAILURE)
  end.

(* eccset.go:25-70, GenPubkey *)
Definition GenPubkey (prikey : bytes) (typ : Z) : outcome (option bytes * Z) :=
  if typ =? ECC_CURVE_ED25519_NORMAL then genpub_ret (sp_genpub (bk_ed_normal B) prikey)
  else if typ =? ECC_CURVE_ED25519 then genpub_ret (sp_genpub (bk_ed B) prikey)
  else if typ =? ECC_CURVE_X25519 then genpub_ret (sp_genpub (bk_x B) prikey)
  else if typ =? ECC_CURVE_CURVE25519_SHA256 then genpub_ret (sp_genpub (bk_sha256 B) prikey)
  else if typ =? ECC_CURVE_SECP256K1 then genpub_ret (Ret (gen_public_key k1_curve prikey))
  else if typ =? ECC_CURVE_SECP256R1 then genpub_ret (Ret (gen_public_key (bk_r1 B) prikey))
  else if typ =? ECC_CURVE_SM2_STANDARD then genpub_ret (Ret (gen_public_key sm2_curve prikey))
  else if (typ =? ECC_CURVE_BLS_AUG) || (typ =? ECC_CURVE_BLS_NUL)
       then genpub_ret (sp_genpub (bk_bls B) prikey)
  else if typ =? ECC_CURVE_PASTA then genpub_ret (sp_genpub (bk_pasta B) prikey)
  else Ret (None, ECC_WRONG_TYPE).

(* eccset.go:113-127 *)
Definition sign_ret (o : run (result (bytes * Z))) : run (option bytes * Z * Z) :=
  match o with
  | None => None
  | Some Panic => Some Panic
  | Some (Ret (Ok (sig, v))) => Some (Ret (Some sig, v, SUCCESS))
  | Some (Ret (Err ErrPrivateKeyIllegal)) => Some (Ret (None, 0, ECC_PRIKEY_ILLEGAL))
  | Some (Ret (Err ErrUnknownCurve)) => Some (Ret (None, 0, ECC_WRONG_TYPE))
  | Some (Ret (Err ErrMessageIllegal)) => Some (Ret (None, 0, MESSAGE_ILLEGAL))
  | Some (Ret (Err _)) => Some (Ret (None, 0, FAILURE))
  end.
Definition with_v0 (o : run (result bytes)) : run (result (bytes * Z)) :=
  match o with
  | None => None
  | Some Panic => Some Panic
  | Some (Ret (Ok sig)) => Some (Ret (Ok (sig, 0)))
  | Some (Ret (Err e)) => Some (Ret (Err e))
  end.
Definition no_panic {A} (o : option (result A)) : run (result A) :=
  match o with None => None | Some r => Some (Ret r) end.

(* eccset.go:72-128, Signature.  [append] is concatenation: the aliasing of a
   caller's spare capacity is not modelled. *)
Definition Signature (prikey : bytes) (ID : option bytes) (message : bytes) (typ : Z)
  : run (option bytes * Z * Z) :=
  if typ =? ECC_CURVE_ED25519_NORMAL then sign_ret (with_v0 (sp_sign (bk_ed_normal B) prikey message))
  else if typ =? ECC_CURVE_ED25519 then sign_ret (with_v0 (sp_sign (bk_ed B) prikey message))
  else if typ =? ECC_CURVE_X25519 then sign_ret (with_v0 (sp_sign (bk_x B) prikey message))
  else if typ =? ECC_CURVE_CURVE25519_SHA256 then sign_ret (with_v0 (sp_sign (bk_sha256 B) prikey message))
  else if typ =? ECC_CURVE_SECP256K1
       then sign_ret (no_panic (ecdsa_sign (bk_drbg B) k1_curve (bk_entropy B) (bk_fuel B) prikey message))
  else if typ =? ECC_CURVE_SECP256R1
       then sign_ret (no_panic (ecdsa_sign (bk_drbg B) (bk_r1 B) (bk_entropy B) (bk_fuel B) prikey message))
  else if typ =? ECC_CURVE_SM2_STANDARD then sign_ret (fst (sm2_sign (bk_drbg B) (bk_entropy B) (bk_fuel B) prikey ID message))
  else if typ =? ECC_CURVE_BLS_NUL
       then sign_ret (with_v0 (sp_sign (bk_bls B) prikey (BASIC_SCHEME_DST ++ message)))
  else if typ =? ECC_CURVE_BLS_AUG
       then match GenPubkey prikey typ with
            | Panic => Some Panic
            | Ret (pub, _) =>
                let pub := match pub with Some p => p | None => [] end in
                sign_ret (with_v0 (sp_sign (bk_bls B) prikey (AUG_SCHEME_DST ++ pub ++ message)))
            end
  else if typ =? ECC_CURVE_PASTA then sign_ret (with_v0 (sp_sign (bk_pasta B) prikey message))
  else Some (Ret (None, 0, ECC_WRONG_TYPE)).

(* eccset.go:130-150, AggregateSignatures *)
Definition AggregateSignatures (typ : Z) (sigs : list bytes) : outcome (option bytes * Z) :=
  match sigs with
  | [] => Ret (None, FAILURE)
  | _ => if (typ =? ECC_CURVE_BLS_NUL) || (typ =? ECC_CURVE_BLS_AUG)
         then match bk_bls_aggregate B sigs with
              | Panic => Panic
              | Ret None => Ret (None, FAILURE)
              | Ret (Some a) => Ret (Some a, SUCCESS)
              end
         else Ret (None, ECC_WRONG_TYPE)
  end.

(* eccset.go:152-196, Verify *)
Definition verify_ret (o : outcome bool) : outcome Z :=
  match o with
  | Panic => Panic
  | Ret true => Ret SUCCESS
  | Ret false => Ret FAILURE
  end.
Definition Verify (pubkey : bytes) (ID : option bytes) (message signature : bytes) (typ : Z) : outcome Z :=
  if typ =? ECC_CURVE_ED25519_NORMAL then verify_ret (sp_verify (bk_ed_normal B) pubkey message signature)
  else if typ =? ECC_CURVE_ED25519 then verify_ret (sp_verify (bk_ed B) pubkey message signature)
  else if typ =? ECC_CURVE_X25519 then verify_ret (sp_verify (bk_x B) pubkey message signature)
  else if typ =? ECC_CURVE_CURVE25519_SHA256 then verify_ret (sp_verify (bk_sha256 B) pubkey message signature)
  else if typ =? ECC_CURVE_SECP256K1 then verify_ret (Ret (ecdsa_verify k1_curve pubkey message signature))
  else if typ =? ECC_CURVE_SECP256R1 then verify_ret (Ret (ecdsa_verify (bk_r1 B) pubkey message signature))
  else if typ =? ECC_CURVE_SM2_STANDARD then verify_ret (Ret (fst (sm2_verify pubkey ID message signature)))
  else if typ =? ECC_CURVE_BLS_NUL
       then verify_ret (sp_verify (bk_bls B) pubkey (BASIC_SCHEME_DST ++ message) signature)
  else if typ =? ECC_CURVE_BLS_AUG
       then verify_ret (sp_verify (bk_bls B) pubkey (AUG_SCHEME_DST ++ pubkey ++ message) signature)
  else if typ =? ECC_CURVE_PASTA then verify_ret (sp_verify (bk_pasta B) pubkey message signature)
  else Ret ECC_WRONG_TYPE.

(* eccset.go:198-224, Encryption: any other error is reported as SUCCESS *)
Definition Encryption (pubkey plain : bytes) (typ : Z) : run (option bytes * Z) :=
  if typ =? ECC_CURVE_SM2_STANDARD then
    match fst (sm2_encrypt (bk_rand B) (bk_fuel B) pubkey plain) with
    | None => None
    | Some Panic => Some Panic
    | Some (Ret (Ok c)) => Some (Ret (Some c, SUCCESS))
    | Some (Ret (Err ErrPublicKeyIllegal)) => Some (Ret (None, ECC_PUBKEY_ILLEGAL))
    | Some (Ret (Err ErrMessageIllegal)) => Some (Ret (None, MESSAGE_ILLEGAL))
    | Some (Ret (Err ErrUnknownCurve)) => Some (Ret (None, ECC_WRONG_TYPE))
    | Some (Ret (Err _)) => Some (Ret (None, SUCCESS))
    end
  else Some (Ret (None, ECC_WRONG_TYPE)).

(* eccset.go:226-251, Decryption: what decrypt returned is handed on with
   SUCCESS when its error is not one of the three named ones *)
Definition Decryption (prikey cipher : bytes) (typ : Z) : outcome (option bytes * Z) :=
  if typ =? ECC_CURVE_SM2_STANDARD then
    match fst (sm2_decrypt prikey cipher) with
    | Panic => Panic
    | Ret (_, Some ErrPrivateKeyIllegal) => Ret (None, ECC_PRIKEY_ILLEGAL)
    | Ret (_, Some ErrMessageIllegal) => Ret (None, MESSAGE_ILLEGAL)
    | Ret (_, Some ErrUnknownCurve) => Ret (None, ECC_WRONG_TYPE)
    | Ret (c, _) => Ret (Some c, SUCCESS)
    end
  else Ret (None, ECC_WRONG_TYPE).

(** What rand.Read leaves in a fresh 32-byte buffer; errors are ignored by the
    key agreement. *)
Definition rand32 : bytes := match bk_rand B 0 with Some b => b | None => repeat 0 32 end.
(* eccset.go:254-257, KeyAgreement_initiator_step1: the identifier is ignored *)
Definition KeyAgreement_initiator_step1 (typ : Z) : bytes * bytes := fst (sm2_ka_initiator_step1 rand32).
(* eccset.go:259-284, KeyAgreement_initiator_step2 *)
Definition KeyAgreement_initiator_step2 (idI idR prikey pubI pubR tmpPri tmpPubI tmpPubR sin : bytes) (keylen typ : Z)
  : outcome (bytes * bytes * Z) :=
  if negb (typ =? ECC_CURVE_SM2_STANDARD) then Ret ([], [], ECC_WRONG_TYPE)
  else match fst (sm2_ka_initiator_step2 idI idR prikey pubI pubR tmpPri tmpPubI tmpPubR sin keylen) with
  | Panic => Panic
  | Ret (key, sout, ok) => Ret (key, sout, if ok then SUCCESS else FAILURE)
  end.
(* eccset.go:286-336, KeyAgreement_responder_step1 ([given] = None) and
   KeyAgreement_responder_ElGamal_step1 *)
Definition KeyAgreement_responder_any (idI idR prikey pubR pubI tmpPubI : bytes) (given : option bytes) (keylen typ : Z)
  : outcome (bytes * bytes * bytes * bytes * Z) :=
  if negb (typ =? ECC_CURVE_SM2_STANDARD) then Ret ([], [], [], [], ECC_WRONG_TYPE)
  else match fst (sm2_ka_responder_step1 rand32 idI idR prikey pubR pubI tmpPubI given keylen) with
  | Panic => Panic
  | Ret (key, tmpPub, si, so, ok) => Ret (key, tmpPub, si, so, if ok then SUCCESS else FAILURE)
  end.
Definition KeyAgreement_responder_step1 (idI idR prikey pubR pubI tmpPubI : bytes) (keylen typ : Z) :=
  KeyAgreement_responder_any idI idR prikey pubR pubI tmpPubI None keylen typ.
Definition KeyAgreement_responder_ElGamal_step1 (idI idR prikey pubR pubI tmpPubI : bytes) (keylen : Z)
    (random : option bytes) (typ : Z) :=
  KeyAgreement_responder_any idI idR prikey pubR pubI tmpPubI random keylen typ.
(* eccset.go:338-353, KeyAgreement_responder_step2 *)
Definition KeyAgreement_responder_step2 (si sr : bytes) (typ : Z) : Z :=
  if negb (typ =? ECC_CURVE_SM2_STANDARD) then ECC_WRONG_TYPE
  else if sm2_ka_responder_step2 si sr then SUCCESS else FAILURE.

(* eccset.go:580-602, PointCompress; nil is [None] *)
Definition PointCompress (point : option bytes) (typ : Z) : option bytes :=
  if negb (typ =? ECC_CURVE_SECP256K1) && negb (typ =? ECC_CURVE_SECP256R1)
     && negb (typ =? ECC_CURVE_SM2_STANDARD) && negb (typ =? ECC_CURVE_PASTA) then None
  else match point with
  | None => None
  | Some p =>
      let p := if (length p =? 65)%nat && (nth 0 p 0 =? 4) then skipn 1 p else p in
      if negb (length p =? 64)%nat then None
      else if nth 63 p 0 mod 2 =? 0 then Some (2 :: firstn 32 p) else Some (3 :: firstn 32 p)
  end.

(* eccset.go:604-641, PointDecompress *)
Definition PointDecompress (point : bytes) (typ : Z) : outcome (option bytes) :=
  if negb (length point =? 33)%nat then Ret None
  else if typ =? ECC_CURVE_SECP256K1 then Ret (k1_decompress point)
  else if typ =? ECC_CURVE_SECP256R1 then Ret (r1_decompress point)
  else if typ =? ECC_CURVE_SM2_STANDARD then Ret (sm2_decompress point)
  else if typ =? ECC_CURVE_PASTA then bk_pasta_decompress B point
  else Ret None.

(* eccset.go:355-388, Point_mulBaseG: errors of the callee are dropped *)
Definition ok_or_nil (r : result bytes) : option bytes :=
  match r with Ok b => Some b | Err _ => None end.
Definition ok_or_nil_o (o : outcome (result bytes)) : outcome (option bytes) :=
  match o with Panic => Panic | Ret r => Ret (ok_or_nil r) end.
Definition Point_mulBaseG (scalar : bytes) (typ : Z) : outcome (option bytes) :=
  if negb (length scalar =? 32)%nat then Ret None
  else if typ =? ECC_CURVE_SECP256K1
       then Ret (PointCompress (ok_or_nil (gen_public_key k1_curve scalar)) typ)
  else if typ =? ECC_CURVE_SECP256R1
       then Ret (PointCompress (ok_or_nil (gen_public_key (bk_r1 B) scalar)) typ)
  else if typ =? ECC_CURVE_SM2_STANDARD
       then Ret (PointCompress (ok_or_nil (gen_public_key sm2_curve scalar)) typ)
  else if typ =? ECC_CURVE_ED25519 then ok_or_nil_o (sp_genpub (bk_ed B) scalar)
  else if (typ =? ECC_CURVE_BLS_NUL) || (typ =? ECC_CURVE_BLS_AUG)
       then ok_or_nil_o (sp_genpub (bk_bls B) scalar)
  else if typ =? ECC_CURVE_PASTA
       then match ok_or_nil_o (sp_genpub (bk_pasta B) scalar) with
            | Panic => Panic | Ret p => Ret (PointCompress p typ) end
  else Ret None.

(** Go's copy into a zeroed [32]byte. *)
Definition copy32 (b : bytes) : bytes := firstn 32 b ++ repeat 0 (32 - length b).

(* eccset.go:390-425, Point_mulBaseG_add *)
Definition Point_mulBaseG_add (pointin scalar : bytes) (typ : Z) : outcome (option bytes * bool) :=
  if negb (length scalar =? 32)%nat then Ret (None, false)
  else if typ =? ECC_CURVE_SECP256K1 then mul_baseg_add k1_curve pointin scalar
  else if typ =? ECC_CURVE_SECP256R1 then mul_baseg_add (bk_r1 B) pointin scalar
  else if typ =? ECC_CURVE_SM2_STANDARD then mul_baseg_add sm2_curve pointin scalar
  else if typ =? ECC_CURVE_ED25519
       then let '(p, inf) := bk_ed_baseadd B (copy32 pointin) (copy32 scalar) in
            Ret (if inf then (None, true) else (Some p, false))
  else if (typ =? ECC_CURVE_BLS_NUL) || (typ =? ECC_CURVE_BLS_AUG)
       then bk_bls_baseadd B pointin scalar
  else if typ =? ECC_CURVE_PASTA
       then match bk_pasta_baseadd B pointin scalar with
            | Panic => Panic | Ret p => Ret (p, false) end
  else Ret (None, false).

(* eccset.go:433-439: normalise a point argument to 64 bytes; [Ret None] is the
   FAILURE return, and slicing a nil decompression result panics *)
Definition point_arg (point : bytes) (typ : Z) : outcome (option bytes) :=
  if (length point =? 33)%nat then
    match PointDecompress point typ with
    | Panic => Panic
    | Ret None => Panic
    | Ret (Some p) => Ret (Some (skipn 1 p))
    end
  else if (length point =? 65)%nat then Ret (Some (skipn 1 point))
  else if negb (length point =? 64)%nat then Ret None
  else Ret (Some point).

Definition inf_ret (o : outcome (option bytes * bool)) : outcome (option bytes * Z) :=
  match o with
  | Panic => Panic
  | Ret (_, true) => Ret (None, FAILURE)
  | Ret (p, false) => Ret (p, SUCCESS)
  end.

(* eccset.go:427-489, Point_add *)
Definition Point_add (point1 point2 : bytes) (typ : Z) : outcome (option bytes * Z) :=
  if typ =? ECC_CURVE_ED25519 then
    if negb (length point1 =? 32)%nat || negb (length point2 =? 32)%nat then Ret (None, FAILURE)
    else let '(p, inf) := bk_ed_add B point1 point2 in
         Ret (if inf then (None, FAILURE) else (Some p, SUCCESS))
  else
    match point_arg point1 typ with
    | Panic => Panic
    | Ret None => Ret (None, FAILURE)
    | Ret (Some p1) =>
        match point_arg point2 typ with
        | Panic => Panic
        | Ret None => Ret (None, FAILURE)
        | Ret (Some p2) =>
            if typ =? ECC_CURVE_SECP256K1 then inf_ret (point_add k1_curve p1 p2)
            else if typ =? ECC_CURVE_SECP256R1 then inf_ret (point_add (bk_r1 B) p1 p2)
            else if typ =? ECC_CURVE_SM2_STANDARD then inf_ret (point_add sm2_curve p1 p2)
            else if typ =? ECC_CURVE_PASTA
                 then match bk_pasta_add B p1 p2 with
                      | Panic => Panic | Ret p => Ret (p, SUCCESS) end
            else Ret (None, FAILURE)
        end
    end.

(* eccset.go:491-549, Point_mul *)
Definition Point_mul (pointin scalar : bytes) (typ : Z) : outcome (option bytes * Z) :=
  if typ =? ECC_CURVE_ED25519 then Ret (None, FAILURE)
  else
    match point_arg pointin typ with
    | Panic => Panic
    | Ret None => Ret (None, FAILURE)
    | Ret (Some p) =>
        if negb (length scalar =? 32)%nat then Ret (None, FAILURE)
        else if typ =? ECC_CURVE_SECP256K1 then inf_ret (point_mul k1_curve p scalar)
        else if typ =? ECC_CURVE_SECP256R1 then inf_ret (point_mul (bk_r1 B) p scalar)
        else if typ =? ECC_CURVE_SM2_STANDARD then inf_ret (point_mul sm2_curve p scalar)
        else if typ =? ECC_CURVE_PASTA
             then match bk_pasta_mul B p scalar with
                  | Panic => Panic | Ret p => Ret (p, SUCCESS) end
        else Ret (None, FAILURE)
    end.

(* eccset.go:551-578, GetCurveOrder: the decoded hex strings *)
Definition GetCurveOrder (typ : Z) : option bytes :=
  if typ =? ECC_CURVE_SECP256K1
    then Some (z2be 32 0xfffffffffffffffffffffffffffffffebaaedce6af48a03bbfd25e8cd0364141)
  else if typ =? ECC_CURVE_SECP256R1
    then Some (z2be 32 0xffffffff00000000ffffffffffffffffbce6faada7179e84f3b9cac2fc632551)
  else if typ =? ECC_CURVE_SM2_STANDARD
    then Some (z2be 32 0xFFFFFFFEFFFFFFFFFFFFFFFFFFFFFFFF7203DF6B21C6052B53BBF40939D54123)
  else if typ =? ECC_CURVE_ED25519
    then Some (z2be 32 0x1000000000000000000000000000000014def9dea2f79cd65812631a5cf5d3ed)
  else if typ =? ECC_CURVE_PASTA
    then Some (z2be 32 0x40000000000000000000000000000000224698fc0994a8dd8c46eb2100000001)
  else None.

(* eccset.go:643-672, RecoverPubkey *)
Definition recover_ret (o : outcome (option bytes)) : outcome (option bytes * Z) :=
  match o with
  | Panic => Panic
  | Ret None => Ret (None, FAILURE)
  | Ret (Some p) => Ret (Some p, SUCCESS)
  end.
Definition RecoverPubkey (sig msg : bytes) (typ : Z) : outcome (option bytes * Z) :=
  if typ =? ECC_CURVE_SECP256K1 then recover_ret (recover_public k1_curve k1_decompress sig msg)
  else if typ =? ECC_CURVE_SECP256R1 then recover_ret (recover_public (bk_r1 B) r1_decompress sig msg)
  else if typ =? ECC_CURVE_SM2_STANDARD then recover_ret (sm2_recover sig msg)
  else Ret (None, ECC_WRONG_TYPE).

End Api.
