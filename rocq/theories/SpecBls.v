(** * What the BLS12-381 code is meant to compute. *)
From Coq Require Import ZArith List.
From Verif Require Import ModelBlsF.
Import ListNotations.
Local Open Scope Z_scope.

(** The field modulus p of BLS12-381 and the Montgomery radix 2^384. *)
Definition bls_p : Z :=
  0x1a0111ea397fe69a4b1ba7b6434bacd764774b84f38512bf6730d2a0f6b0f6241eabfffeb153ffffb9feffffffffaaab.
Definition bls_R : Z := 2 ^ 384.

(** The number whose base 2^64 digits are the given words, least significant
    first. *)
Fixpoint bval (l : list Z) : Z :=
  match l with [] => 0 | x :: r => x + B64 * bval r end.

(** [fe_of x v]: the six words [x] are the reduced Montgomery form of [v]
    modulo p. *)
Definition fe_of (x : list Z) (v : Z) : Prop :=
  length x = 6%nat /\ Forall (fun w => 0 <= w < B64) x /\
  0 <= v < bls_p /\ bval x = (v * bls_R) mod bls_p.
