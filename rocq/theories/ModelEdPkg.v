(** Package eddsa behind GenPubkey, Signature and Verify.  SHA-512 and what
    crypto/rand delivers are parameters. *)
Require Import ZArith List.
Require Import Verif.Base Verif.ModelECDSA Verif.ModelEdDSA Verif.ModelApi.

(* /repo/eccset.go:28-30, 75-77, 155-157: ECC_CURVE_ED25519_NORMAL *)
Definition ed_normal_pkg (sha512 : bytes -> bytes) : sigpkg :=
  {| sp_genpub := fun k => Ret (CURVE25519_genPub sha512 k);
     sp_sign := fun k m => Some (Ret (CURVE25519_sign sha512 k m));
     sp_verify := fun p m s => Ret (eddsa_verify sha512 p m s) |}.
(* /repo/eccset.go:31-33, 78-80, 158-160: ECC_CURVE_ED25519 *)
Definition ed_pkg (sha512 : bytes -> bytes) (rnd : bytes) : sigpkg :=
  {| sp_genpub := fun k => Ret (ED25519_genPub k);
     sp_sign := fun k m => Some (Ret (ED25519_sign sha512 rnd k m));
     sp_verify := fun p m s => Ret (eddsa_verify sha512 p m s) |}.
(* /repo/eccset.go:34-36, 81-83, 161-163: ECC_CURVE_X25519 *)
Definition x_pkg (sha512 : bytes -> bytes) (rnd : bytes) : sigpkg :=
  {| sp_genpub := fun k => Ret (X25519_genPub k);
     sp_sign := fun k m => Some (Ret (X25519_sign sha512 rnd k m));
     sp_verify := fun p m s => Ret (X25519_verify sha512 p m s) |}.

(** The dispatcher runs this package. *)
Definition runs_eddsa (sha512 : bytes -> bytes) (rnd : bytes) (B : backends) : Prop :=
  bk_ed_normal B = ed_normal_pkg sha512 /\ bk_ed B = ed_pkg sha512 rnd /\ bk_x B = x_pkg sha512 rnd /\
  bk_ed_baseadd B = ScalarMultBaseAdd /\ bk_ed_add B = ed_Point_add.
