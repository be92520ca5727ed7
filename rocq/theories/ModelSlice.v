(** * Slices that share an array: the call of append in eccset.go:180-183 *)
From Coq Require Import ZArith List Bool.
From Verif Require Import Base ModelECDSA ModelApi.
Import ListNotations.
Local Open Scope Z_scope.

(** A slice of the array under consideration: offset, length, capacity *)
Record slice := mkSlice { s_off : nat; s_len : nat; s_cap : nat }.
Definition sread (m : bytes) (s : slice) : bytes := firstn (s_len s) (skipn (s_off s) m).
Definition swrite (m : bytes) (off : nat) (x : bytes) : bytes :=
  firstn off m ++ x ++ skipn (off + length x) m.
(** Go's append(s, x...): in place when the capacity suffices (the bytes after the
    slice are overwritten), otherwise in a fresh array.  Result: the array
    afterwards, and the value of the new slice. *)
Definition append_to (m : bytes) (s : slice) (x : bytes) : bytes * bytes :=
  if Nat.leb (s_len s + length x) (s_cap s)
  then (swrite m (s_off s + s_len s) x, sread m s ++ x)
  else (m, sread m s ++ x).

(** eccset.go:180-183: Verify with ECC_CURVE_BLS_AUG, the three inputs being
    slices of one array.  The second append starts from a fresh slice.
    Result: the returned code, and the array afterwards. *)
Definition VerifyAUG_mem (B : backends) (m : bytes) (pubkey message signature : slice) : outcome Z * bytes :=
  let '(m', msg) := append_to m pubkey (sread m message) in
  let msg := AUG_SCHEME_DST ++ msg in
  (verify_ret (sp_verify (bk_bls B) (sread m' pubkey) msg (sread m' signature)), m').
