(** Model of /repo/eddsa/{ed25519,curve25519,convert,x25519}.go.  SHA-512 is a
    parameter; the bytes rand.Read delivers are arguments (its error is ignored
    by the source).  The errors of package eddsa are not the values eccset.go
    compares with, so they are all [ErrOther] here.  No proofs in this file. *)
Require Import ZArith List Bool.
Require Import Verif.Base Verif.ModelECDSA Verif.ModelSlp Verif.ModelEdCode Verif.ModelEd.
Import ListNotations.
Open Scope Z_scope.

(** crypto/subtle ConstantTimeCompare(a, b) == 1 *)
Definition ct_eq (a b : bytes) : bool := if list_eq_dec Z.eq_dec a b then true else false.

(* convert.go:58-64, cryptoVerify32 *)
Definition cryptoVerify32 (x y : bytes) : Z := fold_left Z.lor (map2 Z.lxor x y) 0.
(* x25519.go:566-573, cryptoVerify32Ref *)
Definition cryptoVerify32Ref (x y : bytes) : Z :=
  Z.land 1 (Z.shiftr (cryptoVerify32 x y - 1) 8) - 1.

(** k[0] &= a; k[31] &= b; k[31] |= 64 *)
Definition clamp (b : Z) (k : bytes) : bytes :=
  let k := upd 0 (Z.land (nth 0 k 0) 248) k in
  let k := upd 31 (Z.land (nth 31 k 0) b) k in
  upd 31 (Z.lor (nth 31 k 0) 64) k.

Section EdDSA.
Variable sha512 : bytes -> bytes.

(* ed25519.go:29-43, ED25519_genPub *)
Definition ED25519_genPub (prikey : bytes) : result bytes :=
  if negb (length prikey =? 32)%nat then Err ErrOther
  else Ok (ext_tobytes (GeScalarMultBase prikey)).

(** ed25519.go:62-90 and curve25519.go:63-91: from the clamped scalar, the
    public key and the bytes hashed before the message *)
Definition sign_tail (esk pubkey prefix message : bytes) : bytes :=
  let messageDigestReduced := ScReduce (sha512 (prefix ++ message)) in
  let encodedR := ext_tobytes (GeScalarMultBase messageDigestReduced) in
  let hramDigestReduced := ScReduce (sha512 (encodedR ++ pubkey ++ message)) in
  encodedR ++ ScMulAdd hramDigestReduced esk messageDigestReduced.

(* ed25519.go:46-91, ED25519_sign; [rnd] is what rand.Read put in digest1 *)
Definition ED25519_sign (rnd prikey message : bytes) : result bytes :=
  if negb (length prikey =? 32)%nat then Err ErrOther
  else match ED25519_genPub prikey with
  | Err _ => Err ErrOther
  | Ok pubkey => Ok (sign_tail (clamp 63 prikey) pubkey rnd message)
  end.

(* ed25519.go:93-130, ED25519_verify; curve25519.go:95-136, CURVE25519_verify
   has the same text *)
Definition eddsa_verify (pubkey message sig : bytes) : bool :=
  if negb (length pubkey =? 32)%nat then false
  else if negb (length sig =? 64)%nat || negb (Z.land (nth 63 sig 0) 224 =? 0) then false
  else let '(ok, A) := ext_frombytes pubkey in
  if negb ok then false
  else
    let A := mkext (FeNeg (eX A)) (eY A) (eZ A) (FeNeg (eT A)) in
    let hReduced := ScReduce (sha512 (firstn 32 sig ++ pubkey ++ message)) in
    let R := GeDoubleScalarMultVartime hReduced A (skipn 32 sig) in
    ct_eq (firstn 32 sig) (proj_tobytes R).

(* curve25519.go:22-41, CURVE25519_genPub *)
Definition CURVE25519_genPub (prikey : bytes) : result bytes :=
  if negb (length prikey =? 32)%nat then Err ErrOther
  else Ok (ext_tobytes (GeScalarMultBase (clamp 127 (firstn 32 (sha512 prikey))))).

(* curve25519.go:43-92, CURVE25519_sign *)
Definition CURVE25519_sign (prikey message : bytes) : result bytes :=
  match CURVE25519_genPub prikey with
  | Err e => Err e
  | Ok pubkey =>
      let digest1 := sha512 prikey in
      Ok (sign_tail (clamp 63 (firstn 32 digest1)) pubkey (skipn 32 digest1) message)
  end.

(* convert.go:27-41, montToEdy; 43-56, montFromEdy *)
Definition montToEdy (u : fe) : fe := FeMul (FeSub u FeOne) (FeInvert (FeAdd u FeOne)).
Definition montFromEdy (y : fe) : fe := FeMul (FeInvert (FeSub FeOne y)) (FeAdd y FeOne).
(* convert.go:66-78, feIsReduced: true when s is NOT the canonical encoding *)
Definition feIsReduced (s : bytes) : bool :=
  negb (cryptoVerify32 s (fst (FeToBytes (FeFromBytes s))) =? 0).
(* convert.go:81-95, ConvertXToEd; 97-111, ConvertEdToX *)
Definition ConvertXToEd (x : bytes) : result bytes :=
  if feIsReduced x then Err ErrOther
  else Ok (fst (FeToBytes (montToEdy (FeFromBytes x)))).
Definition ConvertEdToX (ed : bytes) : result bytes :=
  let x := fst (FeToBytes (montFromEdy (FeFromBytes ed))) in
  if feIsReduced x then Err ErrOther else Ok x.

(* /repo/eccset.go:674-686, CURVE25519_convert_X_to_Ed; 688-699, _Ed_to_X *)
Definition CURVE25519_convert_X_to_Ed (x : bytes) : result bytes :=
  if negb (length x =? 32)%nat then Err ErrOther else ConvertXToEd x.
Definition CURVE25519_convert_Ed_to_X (ed : bytes) : result bytes :=
  if negb (length ed =? 32)%nat then Err ErrOther else ConvertEdToX ed.

(* x25519.go:24-40, X25519_genPub *)
Definition X25519_genPub (prikey : bytes) : result bytes :=
  if negb (length prikey =? 32)%nat then Err ErrOther
  else ConvertEdToX (ext_tobytes (GeScalarMultBase prikey)).

(* x25519.go:54-392, x25519_sc_reduce *)
Definition x25519_sc_reduce (s : bytes) : bytes :=
  out_bytes sc_out (exec 64 x_reduce_code (map (ld s) x_reduce_loads)).

(* x25519.go:394-430, sign_modify: the buffer sm is first
   0xFE 0xFF^31 | prikey | message | random, then R | ed_pubkey | message *)
Definition sign_modify (message prikey ed_pubkey random : bytes) : bytes :=
  let nonce := x25519_sc_reduce (sha512 ((254 :: repeat 255 31) ++ prikey ++ message ++ random)) in
  let Rbytes := ext_tobytes (GeScalarMultBase nonce) in
  let hram := x25519_sc_reduce (sha512 (Rbytes ++ ed_pubkey ++ message)) in
  Rbytes ++ ScMulAdd hram prikey nonce.

(* x25519.go:432-453, X25519_sign *)
Definition X25519_sign (random prikey message : bytes) : result bytes :=
  if negb (length prikey =? 32)%nat then Err ErrOther
  else match ED25519_genPub prikey with
  | Err e => Err e
  | Ok ed_pubkey =>
      let signbit := Z.land (nth 31 ed_pubkey 0) 128 in
      let signature := sign_modify message prikey ed_pubkey random in
      Ok (upd 63 (Z.lor (Z.land (nth 63 signature 0) 127) signbit) signature)
  end.

(* x25519.go:519-564, geFromBytesNegateVartime; fePow22523 (459-517) is a copy of
   the one in package edwards25519 *)
Definition geFromBytesNegateVartime (s : bytes) : bool * ext :=
  let Y := FeFromBytes s in
  let Z := FeOne in
  let u := FeSquare Y in
  let v := FeMul u fe_d in
  let u := FeSub u Z in
  let v := FeAdd v Z in
  let v3 := FeSquare v in
  let v3 := FeMul v3 v in
  let X := FeSquare v3 in
  let X := FeMul X v in
  let X := FeMul X u in
  let X := fePow22523 X in
  let X := FeMul X v3 in
  let X := FeMul X u in
  let vxx := FeSquare X in
  let vxx := FeMul vxx v in
  let fin (X : fe) :=
    let '(neg, X) := FeIsNegative X in
    let X := if neg =? Z.shiftr (nth 31 s 0) 7 then FeNeg X else X in
    (true, mkext X Y Z (FeMul X Y)) in
  if negb (FeIsNonZero (FeSub vxx u) =? 0) then
    if negb (FeIsNonZero (FeAdd vxx u) =? 0) then (false, mkext X Y Z FeZero)
    else fin (FeMul X fe_sqrtm1)
  else fin X.

(* x25519.go:575-611, verify_modify: the buffer is R | pubkey | message *)
Definition verify_modify (sm pubkey : bytes) : bool :=
  if negb (Z.land (nth 63 sm 0) 224 =? 0) then false
  else let '(ok, A) := geFromBytesNegateVartime pubkey in
  if negb ok then false
  else
    let rcopy := firstn 32 sm in
    let scopy := firstn 32 (skipn 32 sm) in
    let hash := x25519_sc_reduce (sha512 (rcopy ++ pubkey ++ skipn 64 sm)) in
    let R := GeDoubleScalarMultVartime hash A scopy in
    cryptoVerify32Ref (proj_tobytes R) rcopy =? 0.

(* x25519.go:613-631, X25519_verify; a nil message has length 0 *)
Definition X25519_verify (pubkey message signature : bytes) : bool :=
  if negb (length signature =? 64)%nat || negb (length pubkey =? 32)%nat || (length message =? 0)%nat then false
  else
    let y := montToEdy (FeFromBytes pubkey) in
    let ed_pubkey := fst (FeToBytes y) in
    let ed_pubkey := upd 31 (Z.land (nth 31 ed_pubkey 0) 127) ed_pubkey in
    let ed_pubkey := upd 31 (Z.lor (nth 31 ed_pubkey 0) (Z.land (nth 63 signature 0) 128)) ed_pubkey in
    let verifybuf := upd 63 (Z.land (nth 63 signature 0) 127) signature ++ message in
    verify_modify verifybuf ed_pubkey.

(* ed25519.go:132-153, feIsZero and feIsOne: the argument is a copy *)
Definition feIsZero (f : fe) : bool := cryptoVerify32 (fst (FeToBytes f)) (repeat 0 32) =? 0.
Definition feIsOne (f : fe) : bool := cryptoVerify32 (fst (FeToBytes f)) (1 :: repeat 0 31) =? 0.

(** ed25519.go:168-178 and 197-207; the output array is left at zero when the
    result is the neutral element *)
Definition affine_out (R : proj) : bytes * bool :=
  let recip := FeInvert (pZ R) in
  let x := FeMul (pX R) recip in
  let y := FeMul (pY R) recip in
  if feIsZero x && feIsOne y then (repeat 0 32, true)
  else (set_sign (fst (FeToBytes y)) (fst (FeIsNegative x)), false).
Definition one32 : bytes := 1 :: repeat 0 31.
(* ed25519.go:155-180, ScalarMultBaseAdd *)
Definition ScalarMultBaseAdd (point1 scalar : bytes) : bytes * bool :=
  let P1 := snd (ext_frombytes point1) in
  affine_out (GeDoubleScalarMultVartime one32 P1 scalar).
(* ed25519.go:182-208, Point_add *)
Definition ed_Point_add (point1 point2 : bytes) : bytes * bool :=
  let P1 := snd (ext_frombytes point1) in
  let P2 := snd (ext_frombytes point2) in
  affine_out (GePointAddVarTime one32 P1 one32 P2).
End EdDSA.
