(** What it means for a build of the BLS field code to be exact. *)
From Coq Require Import ZArith List.
From Verif Require Import ModelBlsF SpecBls ModelBls.
Import ListNotations.
Local Open Scope Z_scope.

(** Six words *)
Definition six (x : list Z) : Prop := length x = 6%nat /\ Forall (fun w => 0 <= w < B64) x.

(** Every routine of the build but [square] computes the operation modulo p it is
    named after.  The first operand of [mul] need not be reduced.  ladd, ldouble
    and lsub do not reduce. *)
Record exact_but_square (F : fbuild) : Prop := {
  ex_add : forall x y u v, fe_of x u -> fe_of y v -> fe_of (f_add F x y) ((u + v) mod bls_p);
  ex_sub : forall x y u v, fe_of x u -> fe_of y v -> fe_of (f_sub F x y) ((u - v) mod bls_p);
  ex_neg : forall x u, fe_of x u -> fe_of (f_neg F x) ((- u) mod bls_p);
  ex_double : forall x u, fe_of x u -> fe_of (f_double F x) ((2 * u) mod bls_p);
  ex_mul : forall x y, six x -> six y -> bval y < bls_p ->
    six (f_mul F x y) /\ 0 <= bval (f_mul F x y) < bls_p /\
    (bls_R * bval (f_mul F x y)) mod bls_p = (bval x * bval y) mod bls_p;
  ex_ladd : forall x y, six x -> six y -> bval x + bval y < bls_R ->
    six (f_ladd F x y) /\ bval (f_ladd F x y) = bval x + bval y;
  ex_ldouble : forall x, six x -> 2 * bval x < bls_R ->
    six (f_ldouble F x) /\ bval (f_ldouble F x) = 2 * bval x;
  ex_lsub : forall x y, six x -> six y -> bval y <= bval x ->
    six (f_lsub F x y) /\ bval (f_lsub F x y) = bval x - bval y }.

(** The build squares [x] correctly *)
Definition sq_ok (F : fbuild) (x : list Z) : Prop :=
  forall u, fe_of x u -> fe_of (f_square F x) ((u * u) mod bls_p).
