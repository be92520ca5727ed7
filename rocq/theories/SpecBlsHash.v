(** * RFC 9380, section 5.3.1: expand_message_xmd, for a hash function with
    32-byte output and 64-byte blocks. *)
From Coq Require Import ZArith List Bool.
From Verif Require Import Base.
Import ListNotations.
Local Open Scope Z_scope.

Definition I2OSP (x : Z) (n : nat) : bytes := z2be n x.
Definition strxor (a b : bytes) : bytes := map (fun p => Z.lxor (fst p) (snd p)) (combine a b).

Section Xmd.
Variable H : bytes -> bytes.
Definition DST_prime (dst : bytes) : bytes := dst ++ I2OSP (Z.of_nat (length dst)) 1.
Definition b_zero (msg dst : bytes) (len : Z) : bytes :=
  H (I2OSP 0 64 ++ msg ++ I2OSP len 2 ++ I2OSP 0 1 ++ DST_prime dst).
(** b_(i+1) *)
Fixpoint b_succ (msg dst : bytes) (len : Z) (i : nat) : bytes :=
  match i with
  | O => H (b_zero msg dst len ++ I2OSP 1 1 ++ DST_prime dst)
  | S j => H (strxor (b_zero msg dst len) (b_succ msg dst len j) ++ I2OSP (Z.of_nat i + 1) 1 ++ DST_prime dst)
  end.
Definition expand_message_xmd (msg dst : bytes) (len : Z) : bytes :=
  let ell := (len + 31) / 32 in
  firstn (Z.to_nat len) (concat (map (b_succ msg dst len) (seq 0 (Z.to_nat ell)))).
End Xmd.
