(** Model of /repo/ecdsa.go and /repo/utils.go: the code shared by the
    secp256k1, P-256 and (partly) SM2 curves, over a value of the Go interface
    elliptic.Curve.

    Inputs of type []byte are lists of bytes; where the code does not tell nil
    from an empty slice, nil is the empty list.  Results that may be nil are
    options.  Slice expressions p[:32], p[32:] panic here when the length is
    too small; in Go a larger capacity would let them read beyond the length. *)
Require Import ZArith List Bool.
Require Import Verif.Base Verif.Fp Verif.ModelK1.
Import ListNotations.
Open Scope Z_scope.

(** What the code uses of an elliptic.Curve. *)
Record ecurve := {
  e_P : Z; e_N : Z;
  e_Add : Z -> Z -> Z -> Z -> Z * Z;
  e_ScalarMult : Z -> Z -> bytes -> Z * Z;
  e_ScalarBaseMult : bytes -> Z * Z }.

(* secp256k1.go:26-38 and the methods of ModelK1.v *)
Definition k1_curve : ecurve := {|
  e_P := k1_P; e_N := k1_N; e_Add := k1_add;
  e_ScalarMult := k1_scalar_mult; e_ScalarBaseMult := k1_scalar_base_mult |}.

(** The three error values of ecdsa.go:30-35, and any other error. *)
Inductive err := ErrPrivateKeyIllegal | ErrUnknownCurve | ErrMessageIllegal | ErrPublicKeyIllegal | ErrOther.
Inductive result (A : Type) := Ok (a : A) | Err (e : err).
Arguments Ok {A} a.
Arguments Err {A} e.

(* ecdsa.go:97-108: 32-byte big-endian coordinates, concatenated.  A coordinate
   longer than 32 bytes is not truncated, as in the code. *)
Definition marshal_xy (x y : Z) : bytes := pad32 (big_bytes x) ++ pad32 (big_bytes y).

(* ecdsa.go:42-109, genPublicKey for one curve *)
Definition gen_public_key (E : ecurve) (prikey : bytes) : result bytes :=
  if negb (length prikey =? 32)%nat then Err ErrPrivateKeyIllegal
  else let d := be2z prikey in
  if d =? 0 then Err ErrPrivateKeyIllegal
  else if e_N E <=? d then Err ErrPrivateKeyIllegal
  else let '(x, y) := e_ScalarBaseMult E prikey in
  Ok (marshal_xy x y).

(* utils.go:36-49, randFieldElement; b is the 40-byte block read *)
Definition rand_field_element (N : Z) (b : bytes) : Z := be2z b mod (N - 1) + 1.

(* utils.go:55-59, fermatInverse *)
Definition fermat_inverse (k N : Z) : Z := pow_mod k (N - 2) N.

(* utils.go:85-91 and 110-116: neither a sign bit nor a redundant leading zero
   byte in a DER integer *)
Definition der_clean (z : Z) : bool :=
  let b := pad32 (big_bytes z) in
  (Z.land (nth 0 b 0) 128 =? 0)
  && negb ((nth 0 b 0 =? 0) && (Z.land (nth 1 b 0) 128 =? 0)).

(* utils.go:166-179, hashToInt; N.BitLen() is log2 N + 1 *)
Definition hash_to_int (N : Z) (hash : bytes) : Z :=
  let orderBits := Z.log2 N + 1 in
  let orderBytes := (orderBits + 7) / 8 in
  let hash := if orderBytes <? Z.of_nat (length hash) then firstn (Z.to_nat orderBytes) hash else hash in
  let ret := be2z hash in
  let excess := Z.of_nat (length hash) * 8 - orderBits in
  if 0 <? excess then Z.shiftr ret excess else ret.

(* utils.go:61-121, signGeneric.  The nested loops draw a nonce and start over
   when a check fails; here one loop over the draws, with fuel.  [None]: still
   looping after [fuel] draws. *)
Fixpoint sign_loop (E : ecurve) (d e : Z) (draws : nat -> bytes) (fuel i : nat) : option (Z * Z * Z) :=
  match fuel with
  | O => None
  | S f =>
      let again := sign_loop E d e draws f (S i) in
      let N := e_N E in
      let k := rand_field_element N (draws i) in
      let kInv := fermat_inverse k N in
      let '(rx, ry) := e_ScalarBaseMult E (big_bytes k) in
      let r := rx mod N in
      if r =? 0 then again
      else if negb (der_clean r) then again
      else
        let v := if ry mod 2 =? 1 then 1 else 0 in
        let s := ((d * r + e) * kInv) mod N in
        if s =? 0 then again
        else
          let '(s, v) := if N / 2 <? s then (N - s, Z.lxor v 1) else (s, v) in
          if negb (der_clean s) then again
          else Some (r, s, v)
  end.

(* utils.go:123-164, signecdsa, and ecdsa.go:111-194, sign for secp256k1 and
   P-256.  [entropy] is what crypto/rand delivers (None: read error); [drbg]
   stands for SHA-512, AES-CTR and the 40-byte reads: the i-th block drawn with
   a given key material. *)
Section Sign.
Variable drbg : bytes -> nat -> bytes.

Definition ecdsa_sign (E : ecurve) (entropy : option bytes) (fuel : nat) (prikey hash : bytes)
  : option (result (bytes * Z)) :=
  if negb (length prikey =? 32)%nat then Some (Err ErrPrivateKeyIllegal)
  else if negb (length hash =? 32)%nat then Some (Err ErrMessageIllegal)
  else let d := be2z prikey in
  if d =? 0 then Some (Err ErrPrivateKeyIllegal)
  else if e_N E <=? d then Some (Err ErrPrivateKeyIllegal)
  else match entropy with
  | None => Some (Err ErrOther)
  | Some ent =>
      match sign_loop E d (hash_to_int (e_N E) hash) (drbg (big_bytes d ++ ent ++ hash)) fuel 0 with
      | None => None
      | Some (r, s, v) => Some (Ok (pad32 (big_bytes r) ++ pad32 (big_bytes s), v))
      end
  end.
End Sign.

(* utils.go:200-229, verifyGeneric; the curves of this library implement
   neither Inverse nor CombinedMult.  ModInverse returns nil only for s = 0 mod
   N, which the caller excludes; then big.Int.Mul would panic. *)
Definition verify_generic (E : ecurve) (pubx puby e r s : Z) : bool :=
  let N := e_N E in
  match mod_inverse s N with
  | None => false
  | Some w =>
      let u1 := (e * w) mod N in
      let u2 := (r * w) mod N in
      let '(x1, y1) := e_ScalarBaseMult E (big_bytes u1) in
      let '(x2, y2) := e_ScalarMult E pubx puby (big_bytes u2) in
      let '(x, y) := e_Add E x1 y1 x2 y2 in
      if (x =? 0) && (y =? 0) then false else x mod N =? r
  end.

(* utils.go:185-198, verifyesdsa *)
Definition verify_ecdsa (E : ecurve) (pubx puby : Z) (hash : bytes) (r s : Z) : bool :=
  if (r <=? 0) || (s <=? 0) then false
  else if (e_N E <=? r) || (e_N E <=? s) then false
  else verify_generic E pubx puby (hash_to_int (e_N E) hash) r s.

(* ecdsa.go:196-234, verify for secp256k1 and P-256 *)
Definition ecdsa_verify (E : ecurve) (pubkey hash signature : bytes) : bool :=
  if negb (length pubkey =? 64)%nat then false
  else if negb (length signature =? 64)%nat then false
  else if negb (length hash =? 32)%nat then false
  else verify_ecdsa E (be2z (firstn 32 pubkey)) (be2z (skipn 32 pubkey)) hash
                    (be2z (firstn 32 signature)) (be2z (skipn 32 signature)).

(* ecdsa.go:289-353, MulBaseG_Add; the boolean is isinfinity *)
Definition mul_baseg_add (E : ecurve) (pointin scalar : bytes) : outcome (option bytes * bool) :=
  if (length pointin <? 32)%nat then Panic
  else
    let '(sx, sy) := e_ScalarBaseMult E scalar in
    let '(x, y) := e_Add E sx sy (be2z (firstn 32 pointin)) (be2z (skipn 32 pointin)) in
    if (x =? 0) && (y =? 0) then Ret (None, true)
    else Ret (Some (marshal_xy x y), false).

(* ecdsa.go:355-399, Add; note that line 383 tests x twice *)
Definition point_add (E : ecurve) (point1 point2 : bytes) : outcome (option bytes * bool) :=
  if (length point1 <? 32)%nat || (length point2 <? 32)%nat then Panic
  else
    let '(x, y) := e_Add E (be2z (firstn 32 point1)) (be2z (skipn 32 point1))
                           (be2z (firstn 32 point2)) (be2z (skipn 32 point2)) in
    if (x =? 0) && (x =? 0) then Ret (None, true)
    else Ret (Some (marshal_xy x y), false).

(* ecdsa.go:401-449, Mul *)
Definition point_mul (E : ecurve) (pointin scalar : bytes) : outcome (option bytes * bool) :=
  if (length pointin <? 32)%nat then Panic
  else
    let '(x, y) := e_ScalarMult E (be2z (firstn 32 pointin)) (be2z (skipn 32 pointin)) scalar in
    if (x =? 0) && (y =? 0) then Ret (None, true)
    else Ret (Some (marshal_xy x y), false).

(** Decompression, secp256k1.go:240-278 and secp256r1.go:36-75.  The two
    functions differ only in the right-hand side x3b, a parameter here.
    big.Int.ModSqrt for a prime P = 3 mod 4 returns x3b^((P+1)/4) mod P, and
    leaves y = 0 when x3b is not a square. *)
Definition ec_decompress (P : Z) (x3b : Z -> Z) (input : bytes) : option bytes :=
  match input with
  | tag :: xs =>
      if negb (length input =? 33)%nat || (negb (tag =? 2) && negb (tag =? 3)) then None
      else
        let ybit := if tag =? 2 then 0 else 1 in
        let x := be2z xs in
        let y := match mod_sqrt34 (x3b x mod P) P with Some y => y | None => 0 end in
        let y := if y mod 2 =? ybit then y else P - y in
        if y mod 2 =? ybit then Some (4 :: xs ++ pad32 (big_bytes y)) else None
  | [] => None
  end.

(* secp256k1.go:240-278, secp256k1_decompress *)
Definition k1_decompress : bytes -> option bytes := ec_decompress k1_P (fun x => x * x * x + k1_B).

(** Recovery, secp256k1.go:280-354 and secp256r1.go:77-148 (identical up to the
    curve).  big.Int.Bytes of a negative number is the magnitude. *)
Definition recover_try (E : ecurve) (decomp : bytes -> option bytes) (tag s rinv : Z) (sig hash : bytes)
  : outcome (option bytes) :=
  match decomp (tag :: firstn 32 sig) with
  | None => Panic                                  (* buf1[1:33] on a nil slice *)
  | Some buf1 =>
      let rx := be2z (firstn 32 (skipn 1 buf1)) in
      let ry := be2z (skipn 33 buf1) in
      let '(x1, y1) := e_ScalarMult E rx ry (big_bytes (Z.abs s)) in
      let '(x2, y2) := e_ScalarBaseMult E hash in
      let y2 := e_P E - y2 in
      let '(x1, y1) := e_Add E x1 y1 x2 y2 in
      let '(qx, qy) := e_ScalarMult E x1 y1 (big_bytes rinv) in
      if verify_ecdsa E qx qy hash (be2z (firstn 32 sig)) (be2z (firstn 32 (skipn 32 sig)))
      then Ret (Some (marshal_xy qx qy)) else Ret None
  end.

Definition recover_public (E : ecurve) (decomp : bytes -> option bytes) (sig msg : bytes)
  : outcome (option bytes) :=
  if negb (length sig =? 65)%nat || negb (length msg =? 32)%nat then Ret None
  else
    let N := e_N E in
    let v := nth 64 sig 0 in
    let sg := be2z (firstn 32 (skipn 32 sig)) in
    match mod_inverse (be2z (firstn 32 sig)) N with
    | None => Panic                                (* r_inv is nil; r_inv.Bytes() *)
    | Some rinv =>
        let s0 := if v =? 1 then N - sg else 0 in
        let s1 := if v =? 0 then N - sg else s0 in
        match recover_try E decomp 2 s0 rinv sig msg with
        | Panic => Panic
        | Ret (Some pub) => Ret (Some pub)
        | Ret None => recover_try E decomp 3 s1 rinv sig msg
        end
    end.

(** P-256: parameters of secp256r1.go:28-33.  Its arithmetic is the generic
    code of Go's crypto/elliptic, which is not part of /repo: an [ecurve] with
    these parameters and unspecified operations. *)
Definition r1_P : Z := 0xffffffff00000001000000000000000000000000ffffffffffffffffffffffff.
Definition r1_N : Z := 0xffffffff00000000ffffffffffffffffbce6faada7179e84f3b9cac2fc632551.
Definition r1_B : Z := 0x5ac635d8aa3a93e7b3ebbd55769886bc651d06b0cc53b0f63bce3c3e27d2604b.
(* secp256r1.go:54, the bytes of xa *)
Definition r1_A : Z := 0xffffffff00000001000000000000000000000000fffffffffffffffffffffffc.

(* secp256r1.go:36-75, secp256r1_decompress *)
Definition r1_decompress : bytes -> option bytes :=
  ec_decompress r1_P (fun x => x * x * x + r1_B + r1_A * x).
