(** What ECDSA is, independently of the Go code: SEC 1 / FIPS 186-4 over a
    curve given by its domain parameters, and byte encodings of points. *)
Require Import ZArith List Znumtheory.
Require Import Verif.Base Verif.EC.
Import ListNotations.
Open Scope Z_scope.

(** Uncompressed encoding without the leading 04: X || Y, 32 bytes each. *)
Definition point_bytes (c : wcurve) (P : pt c) : bytes := z2be 32 (px c P) ++ z2be 32 (py c P).

(** The point with the coordinates written in a 64-byte string. *)
Definition point_of_bytes (c : wcurve) (b : bytes) : pt c :=
  paff c (be2z (firstn 32 b)) (be2z (skipn 32 b)).

(** Compressed encoding: 02 or 03 by the parity of y, then X. *)
Definition compressed_bytes (c : wcurve) (P : pt c) : bytes :=
  (2 + py c P mod 2) :: z2be 32 (px c P).

(** FIPS 186-4 signature verification for the public point Q, the hash as an
    integer e, and the signature (r, s). *)
Definition ecdsa_valid (c : wcurve) (Q : pt c) (e r s : Z) : Prop :=
  0 < r < w_n c /\ 0 < s < w_n c /\
  exists w, (s * w) mod w_n c = 1 /\
    let R := w_add c (w_mul c ((e * w) mod w_n c) (w_G c)) (w_mul c ((r * w) mod w_n c) Q) in
    R <> pinf c /\ px c R mod w_n c = r.

(** The forms in which the point functions take a finite point: X || Y, a tag
    byte followed by X || Y, or compressed. *)
Definition encodes (c : wcurve) (P : pt c) (b : bytes) : Prop :=
  b = point_bytes c P \/ (exists tag, b = tag :: point_bytes c P) \/ b = compressed_bytes c P.

(** A 32-byte half is a non-negative DER integer with no redundant octet. *)
Definition der_minimal (half : bytes) : Prop :=
  length half = 32%nat /\ nth 0 half 0 < 128 /\ (nth 0 half 0 = 0 -> 128 <= nth 1 half 0).

(** What callers rely on about a signature and its recovery bit. *)
Definition canonical_sig (n : Z) (sig : bytes) (v : Z) : Prop :=
  exists hr hs, sig = hr ++ hs /\ der_minimal hr /\ der_minimal hs /\
    1 <= be2z hr < n /\ 1 <= be2z hs <= n / 2 /\ (v = 0 \/ v = 1).
