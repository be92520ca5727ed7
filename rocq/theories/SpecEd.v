(** Edwards25519 and Ed25519 as defined in RFC 8032 (section 5.1).  Specification
    only: it does not mention the model of the code. *)
Require Import ZArith List.
Require Import Verif.Base Verif.Fp Verif.Group Verif.Edw.
Import ListNotations.
Open Scope Z_scope.

(** the field and the curve -x^2 + y^2 = 1 + d x^2 y^2 *)
Definition p25 : Z := 2 ^ 255 - 19.
Notation F25 := (fp p25).
Notation fz := (fp_of p25).
Definition ed_d : F25 := fp_div (fz (-121665)) (fz 121666).
Definition ed_pt : Type := (F25 * F25)%type.
Definition ed_on (P : ed_pt) : Prop := e_on F25 (fz 1) fp_add fp_mul fp_sub ed_d P.
Definition ed_zero : ed_pt := e_zero F25 (fz 0) (fz 1).
Definition ed_neg (P : ed_pt) : ed_pt := e_neg F25 fp_opp P.
Definition ed_add (P Q : ed_pt) : ed_pt := e_add F25 (fz 1) fp_add fp_mul fp_sub fp_div ed_d P Q.
Definition ed_mul (k : Z) (P : ed_pt) : ed_pt := zmul ed_zero ed_add ed_neg k P.
(** the base point (y = 4/5, x even) and its order *)
Definition ed_B : ed_pt :=
  (fz 15112221349535400772501151409588531511454012693041857206046113283949847762202,
   fz 46316835694926478169428394003475163141307993866256225615783033603165251855960).
Definition ed_L : Z := 2 ^ 252 + 27742317777372353535851937790883648493.

(** 5.1.2: y in 255 bits, little-endian, and the low bit of x on top *)
Definition ed_enc (P : ed_pt) : bytes :=
  z2le 32 (fval (snd P) + 2 ^ 255 * (fval (fst P) mod 2)).

(** 5.1.3, decoding, without its two rejections: y is taken modulo p, and both
    sign bits are allowed for x = 0 *)
Definition ed_dec (s : bytes) (A : ed_pt) : Prop :=
  ed_on A /\ snd A = fz (le2z s mod 2 ^ 255) /\ (fval (fst A) mod 2 = le2z s / 2 ^ 255 \/ fst A = fz 0).

(** 5.1.5: the buffer with the low three bits and the top bit cleared, bit 254 set *)
Definition ed_clamp (h : bytes) : Z := 2 ^ 254 + 8 * ((le2z h / 8) mod 2 ^ 251).

Section Rfc8032.
Variable sha512 : bytes -> bytes.

(** 5.1.5 and 5.1.6 *)
Definition ed_scalar (key : bytes) : Z := ed_clamp (firstn 32 (sha512 key)).
Definition ed_pub (key : bytes) : bytes := ed_enc (ed_mul (ed_scalar key) ed_B).
Definition ed_sig_r (r a : Z) (pub msg : bytes) : bytes :=
  let R := ed_enc (ed_mul r ed_B) in
  let k := le2z (sha512 (R ++ pub ++ msg)) in
  R ++ z2le 32 ((r + k * a) mod ed_L).
Definition ed_sig (a : Z) (prefix pub msg : bytes) : bytes :=
  ed_sig_r (le2z (sha512 (prefix ++ msg))) a pub msg.
Definition ed_sign (key msg : bytes) : bytes :=
  ed_sig (ed_scalar key) (skipn 32 (sha512 key)) (ed_pub key) msg.

(** 5.1.7, the equation R = [S]B - [k]A on encodings, for a point A *)
Definition ed_eqn (A : ed_pt) (pub msg sig : bytes) : Prop :=
  let R := firstn 32 sig in
  let S := le2z (skipn 32 sig) in
  let k := le2z (sha512 (R ++ pub ++ msg)) in
  ed_enc (ed_add (ed_mul S ed_B) (ed_neg (ed_mul k A))) = R.

(** Signatures with Montgomery keys, as in the first version of the Signal
    library: the sign bit of A travels in the top bit of S *)
Definition x_hash1 (key msg rnd : bytes) : Z := le2z (sha512 ((254 :: repeat 255 31) ++ key ++ msg ++ rnd)).
Definition x_sig (rnd key msg : bytes) : bytes :=
  let A := ed_mul (le2z key) ed_B in
  let s := ed_sig_r (x_hash1 key msg rnd) (le2z key) (ed_enc A) msg in
  firstn 32 s ++ z2le 32 (le2z (skipn 32 s) + 2 ^ 255 * (fval (fst A) mod 2)).
End Rfc8032.

(** RFC 7748, 4.1: u = (1 + y) / (1 - y) and y = (u - 1) / (u + 1); division by
    zero gives zero *)
Definition mont_u (y : F25) : F25 := fp_div (fp_add y (fz 1)) (fp_sub (fz 1) y).
Definition mont_y (u : F25) : F25 := fp_div (fp_sub u (fz 1)) (fp_add u (fz 1)).
Definition f25_enc (x : F25) : bytes := z2le 32 (fval x).
