(** The SM2 signature (GB/T 32918.2) and the digest it signs, independently of
    the Go code, over a curve given by its domain parameters. *)
From Coq Require Import ZArith List.
From Verif Require Import Base EC SpecSM3.
Import ListNotations.
Open Scope Z_scope.

(** 5.5 of the standard: Z = H(ENTL || ID || a || b || xG || yG || xA || yA). *)
Definition sm2_Z (c : wcurve) (Q : pt c) (id : bytes) : bytes :=
  SM3Spec.hash (z2be 2 (8 * Z.of_nat (length id)) ++ id ++
    z2be 32 (w_a c mod w_p c) ++ z2be 32 (w_b c) ++ z2be 32 (w_gx c) ++ z2be 32 (w_gy c) ++
    z2be 32 (px c Q) ++ z2be 32 (py c Q)).

(** The number that is signed: H(Z || M) for a signer with an identity, and the
    caller's 32-byte digest itself when there is none. *)
Definition sm2_number (c : wcurve) (Q : pt c) (id : option bytes) (m : bytes) : Z :=
  match id with
  | None => be2z m
  | Some id => be2z (SM3Spec.hash (sm2_Z c Q id ++ m))
  end.

(** 7.1: verification. *)
Definition sm2_valid (c : wcurve) (Q : pt c) (e r s : Z) : Prop :=
  0 < r < w_n c /\ 0 < s < w_n c /\
  let t := (r + s) mod w_n c in
  t <> 0 /\
  (px c (w_add c (w_mul c s (w_G c)) (w_mul c t Q)) + e) mod w_n c = r.

Definition id_ok (id : option bytes) : Prop :=
  match id with None => True | Some i => bytes_ok i end.

(** GB/T 32918.4, 5.4.3: the key derivation function with SM3.  The standard
    asks for fewer than 2^32 - 1 blocks. *)
Definition sm2_KDF (z : bytes) (len : nat) : bytes :=
  firstn len (concat (map (fun i => SM3Spec.hash (z ++ z2be 4 (Z.of_nat i))) (seq 1 ((len + 31) / 32)))).

Definition sm2_x (c : wcurve) (P : pt c) : bytes := z2be 32 (px c P).
Definition sm2_y (c : wcurve) (P : pt c) : bytes := z2be 32 (py c P).
Definition xor_all (a b : bytes) : bytes := map (fun p => Z.lxor (fst p) (snd p)) (combine a b).

(** GB/T 32918.4, 6.1, in the order C1 || C3 || C2 of the 2016 edition, with the
    uncompressed form of C1: what encrypting m to Q with the random number k gives. *)
Definition sm2_ciphertext (c : wcurve) (Q : pt c) (k : Z) (m ct : bytes) : Prop :=
  let S := w_mul c k Q in
  let t := sm2_KDF (sm2_x c S ++ sm2_y c S) (length m) in
  0 < k < w_n c /\ Exists (fun b => b <> 0) t /\
  ct = [4] ++ (sm2_x c (w_mul c k (w_G c)) ++ sm2_y c (w_mul c k (w_G c)))
       ++ SM3Spec.hash (sm2_x c S ++ m ++ sm2_y c S) ++ xor_all t m.

(** GB/T 32918.3, 6.1: the shared point computed from the own secrets d, r and
    the other side's public keys Q', R'; the key; the two confirmation hashes. *)
Definition sm2_xbar (c : wcurve) (P : pt c) : Z := 2 ^ 127 + px c P mod 2 ^ 127.
Definition sm2_shared (c : wcurve) (d r : Z) (Q' R' : pt c) : pt c :=
  w_mul c ((d + sm2_xbar c (w_mul c r (w_G c)) * r) mod w_n c)
        (w_add c Q' (w_mul c (sm2_xbar c R') R')).
Definition sm2_agreed_key (c : wcurve) (U : pt c) (ZA ZB : bytes) (len : nat) : bytes :=
  sm2_KDF (sm2_x c U ++ sm2_y c U ++ ZA ++ ZB) len.
Definition sm2_confirm (c : wcurve) (tag : Z) (U : pt c) (ZA ZB : bytes) (RA RB : pt c) : bytes :=
  SM3Spec.hash ([tag] ++ sm2_y c U ++
    SM3Spec.hash (sm2_x c U ++ ZA ++ ZB ++ sm2_x c RA ++ sm2_y c RA ++ sm2_x c RB ++ sm2_y c RB)).
