(** The signature scheme of CURVE25519_SHA256 (EC-KCDSA on Curve25519, as in the
    Curve25519 library by Matthijs van Duin).  Specification only: it does not
    mention the model of the code. *)
Require Import ZArith List.
Require Import Verif.Base Verif.Fp Verif.Group Verif.Edw Verif.SpecEd.
Import ListNotations.
Open Scope Z_scope.

(** The second Montgomery coordinate: w = sqrt(-486664) u / x (RFC 7748, 4.1) for
    the root that follows; then w^2 = u^3 + 486662 u^2 + u *)
Definition csz : Z := 6853475219497561581579357271197624642482790079785650197046958215289687604742.
Definition mont_w (P : ed_pt) : F25 := fp_div (fp_mul (fz csz) (mont_u (snd P))) (fst P).

(** the private exponent: k or -k, so that its multiple of B has even w *)
Definition csha_e (k : Z) : Z := if Z.even (fval (mont_w (ed_mul k ed_B))) then k else - k.
Definition csha_u (P : ed_pt) : bytes := f25_enc (mont_u (snd P)).
Definition csha_pubkey (key : bytes) : bytes := csha_u (ed_mul (ed_clamp key) ed_B).

Section Scheme.
Variable H : bytes -> bytes.
(** the nonce of a signature, with s the inverse of the exponent *)
Definition csha_nonce (s : Z) (msg : bytes) : Z := ed_clamp (H (H msg ++ z2le 32 s)).
Definition csha_sig (s : Z) (msg : bytes) : bytes :=
  let x := csha_nonce s msg in
  let h := H (H msg ++ csha_u (ed_mul x ed_B)) in
  z2le 32 (((x - le2z h) * s) mod ed_L) ++ h.
Definition csha_inverse (s e : Z) : Prop := 0 <= s < ed_L /\ (s * e) mod ed_L = 1.
(** acceptance of (v, h) under the point A *)
Definition csha_accepts (A : ed_pt) (msg sig : bytes) : Prop :=
  let v := firstn 32 sig in
  let h := skipn 32 sig in
  h = H (H msg ++ csha_u (ed_add (ed_mul (le2z v) A) (ed_mul (le2z h) ed_B))).
End Scheme.
