(** * Base field arithmetic of BLS12-381: the portable implementation.

    Models bls12_381/bls/arithmetic_fallback.go (build tags "!amd64 generic"),
    the constants of bls12_381/bls/bls12_381.go it reads, and the parts of
    bls12_381/bls/field_element.go and fp.go working on one field element.

    A field element ([6]uint64) is the list of its six words, least significant
    first.  Words are [Z] in [0, 2^64).  The functions of the code write their
    result through a pointer; here they return it.  The pointers may coincide
    in the code: each function reads word i of its operands no later than it
    writes word i of its result, so the result is the same. *)
From Coq Require Import ZArith List Lia Bool.
Import ListNotations.
Local Open Scope Z_scope.

(** 2^64, the number of values of a uint64. *)
Definition B64 : Z := 18446744073709551616.

(** math/bits Add64, Sub64, Mul64 as used throughout
    arithmetic_fallback.go. *)
Definition add64 (x y c : Z) : Z * Z := ((x + y + c) mod B64, (x + y + c) / B64).
Definition sub64 (x y b : Z) : Z * Z :=
  ((x - y - b) mod B64, if x - y - b <? 0 then 1 else 0).
Definition mul64 (x y : Z) : Z * Z := ((x * y) / B64, (x * y) mod B64).

(** bls12_381.go: var modulus, the six words of p. *)
Definition bls_q : list Z :=
  [13402431016077863595; 2210141511517208575; 7435674573564081700;
   7239337960414712511; 5412103778470702295; 1873798617647539866].
(** arithmetic_fallback.go: the literal 9940570264628428797 = -1/p mod 2^64. *)
Definition bls_inv : Z := 9940570264628428797.

(** Chains of Add64 / Sub64 with the carry passed on
    (arithmetic_fallback.go:49-54, :60-66 and the same lines elsewhere). *)
Fixpoint addc (xs ys : list Z) (c : Z) : list Z * Z :=
  match xs, ys with
  | x :: xs', y :: ys' =>
      let '(s, c1) := add64 x y c in
      let '(r, c2) := addc xs' ys' c1 in (s :: r, c2)
  | _, _ => ([], c)
  end.
Fixpoint subb (xs ys : list Z) (b : Z) : list Z * Z :=
  match xs, ys with
  | x :: xs', y :: ys' =>
      let '(s, b1) := sub64 x y b in
      let '(r, b2) := subb xs' ys' b1 in (s :: r, b2)
  | _, _ => ([], b)
  end.

(** The nested comparison of arithmetic_fallback.go:58 (most significant word
    first); on reversed lists. *)
Fixpoint lexlt (zs qs : list Z) : bool :=
  match zs, qs with
  | z :: zs', q :: qs' => (z <? q) || ((z =? q) && lexlt zs' qs')
  | _, _ => false
  end.

(** arithmetic_fallback.go:56-66: subtract the modulus unless z < modulus. *)
Definition fb_reduce (z : list Z) : list Z :=
  if negb (lexlt (rev z) (rev bls_q)) then fst (subb z bls_q 0) else z.

(** arithmetic_fallback.go:46-90 (add, addAssign). *)
Definition fb_add (x y : list Z) : list Z := fb_reduce (fst (addc x y 0)).
(** arithmetic_fallback.go:92-110 (ladd, laddAssign): no reduction. *)
Definition fb_ladd (x y : list Z) : list Z := fst (addc x y 0).
(** arithmetic_fallback.go:112-156 (double, doubleAssign). *)
Definition fb_double (x : list Z) : list Z := fb_reduce (fst (addc x x 0)).
(** arithmetic_fallback.go:158-167 (ldouble). *)
Definition fb_ldouble (x : list Z) : list Z := fst (addc x x 0).
(** arithmetic_fallback.go:169-205 (sub, subAssign). *)
Definition fb_sub (x y : list Z) : list Z :=
  let '(z, b) := subb x y 0 in
  if negb (b =? 0) then fst (addc z bls_q 0) else z.
(** arithmetic_fallback.go:207-215 (lsubAssign). *)
Definition fb_lsub (x y : list Z) : list Z := fst (subb x y 0).
(** field_element.go:119-121 (IsZero): the or of the words is zero. *)
Definition fb_iszero (x : list Z) : bool := fold_right Z.lor 0 x =? 0.
(** field_element.go:91-99 (SetZero). *)
Definition fb_zero : list Z := [0; 0; 0; 0; 0; 0].
(** arithmetic_fallback.go:217-229 (neg). *)
Definition fb_neg (x : list Z) : list Z :=
  if fb_iszero x then fb_zero else fst (subb bls_q x 0).

(** arithmetic_fallback.go:601-607 (madd0). *)
Definition madd0 (a b c : Z) : Z :=
  let '(hi, lo) := mul64 a b in
  let '(_, k) := add64 lo c 0 in
  fst (add64 hi 0 k).
(** arithmetic_fallback.go:610-616 (madd1): (hi, lo). *)
Definition madd1 (a b c : Z) : Z * Z :=
  let '(hi, lo) := mul64 a b in
  let '(lo, k) := add64 lo c 0 in
  (fst (add64 hi 0 k), lo).
(** arithmetic_fallback.go:619-627 (madd2). *)
Definition madd2 (a b c d : Z) : Z * Z :=
  let '(hi, lo) := mul64 a b in
  let '(c, k) := add64 c d 0 in
  let hi := fst (add64 hi 0 k) in
  let '(lo, k) := add64 lo c 0 in
  (fst (add64 hi 0 k), lo).
(** arithmetic_fallback.go:630-643 (madd2s): (superhi, hi, lo). *)
Definition madd2s (a b c d e : Z) : Z * Z * Z :=
  let '(hi, lo) := mul64 a b in
  let '(lo, k) := add64 lo lo 0 in
  let '(hi, superhi) := add64 hi hi k in
  let '(sum, k) := add64 c e 0 in
  let hi := fst (add64 hi 0 k) in
  let '(lo, k) := add64 lo sum 0 in
  let hi := fst (add64 hi 0 k) in
  let hi := fst (add64 hi 0 d) in
  (superhi, hi, lo).
(** arithmetic_fallback.go:645-655 (madd1s). *)
Definition madd1s (a b d e : Z) : Z * Z * Z :=
  let '(hi, lo) := mul64 a b in
  let '(lo, k) := add64 lo lo 0 in
  let '(hi, superhi) := add64 hi hi k in
  let '(lo, k) := add64 lo e 0 in
  let hi := fst (add64 hi 0 k) in
  let hi := fst (add64 hi 0 d) in
  (superhi, hi, lo).
(** arithmetic_fallback.go:657-669 (madd2sb). *)
Definition madd2sb (a b c e : Z) : Z * Z * Z :=
  let '(hi, lo) := mul64 a b in
  let '(lo, k) := add64 lo lo 0 in
  let '(hi, superhi) := add64 hi hi k in
  let '(sum, k) := add64 c e 0 in
  let hi := fst (add64 hi 0 k) in
  let '(lo, k) := add64 lo sum 0 in
  let hi := fst (add64 hi 0 k) in
  (superhi, hi, lo).
(** arithmetic_fallback.go:671-680 (madd1sb). *)
Definition madd1sb (a b e : Z) : Z * Z * Z :=
  let '(hi, lo) := mul64 a b in
  let '(lo, k) := add64 lo lo 0 in
  let '(hi, superhi) := add64 hi hi k in
  let '(lo, k) := add64 lo e 0 in
  let hi := fst (add64 hi 0 k) in
  (superhi, hi, lo).
(** arithmetic_fallback.go:682-690 (madd3). *)
Definition madd3 (a b c d e : Z) : Z * Z :=
  let '(hi, lo) := mul64 a b in
  let '(c, k) := add64 c d 0 in
  let hi := fst (add64 hi 0 k) in
  let '(lo, k) := add64 lo c 0 in
  (fst (add64 hi e k), lo).

(** arithmetic_fallback.go:255-265: one round of [mul] after its first three
    lines: words 1..5 of y, of the modulus and of t; carries c[1], c[2].  The
    result is t[0..5]. *)
Fixpoint mrow (v m : Z) (ys qs ts : list Z) (c1 c2 : Z) : list Z :=
  match ys, qs, ts with
  | [y], [q], [t] =>
      let '(c1, c0) := madd2 v y c1 t in
      let '(h, l) := madd3 m q c0 c2 c1 in [l; h]
  | y :: ys', q :: qs', t :: ts' =>
      let '(c1, c0) := madd2 v y c1 t in
      let '(c2, l) := madd2 m q c2 c0 in
      l :: mrow v m ys' qs' ts' c1 c2
  | _, _, _ => []
  end.
(** arithmetic_fallback.go:249-266: rounds 1 to 5 of [mul]. *)
Definition mround (v : Z) (ys ts : list Z) : list Z :=
  let '(c1, c0) := madd1 v (hd 0 ys) (hd 0 ts) in
  let m := (c0 * bls_inv) mod B64 in
  let c2 := madd0 m (hd 0 bls_q) c0 in
  mrow v m (tl ys) (tl bls_q) (tl ts) c1 c2.
(** arithmetic_fallback.go:240-247: the same lines of round 0, where t is not
    yet set. *)
Fixpoint mrow0 (v m : Z) (ys qs : list Z) (c1 c2 : Z) : list Z :=
  match ys, qs with
  | [y], [q] =>
      let '(c1, c0) := madd1 v y c1 in
      let '(h, l) := madd3 m q c0 c2 c1 in [l; h]
  | y :: ys', q :: qs' =>
      let '(c1, c0) := madd1 v y c1 in
      let '(c2, l) := madd2 m q c2 c0 in
      l :: mrow0 v m ys' qs' c1 c2
  | _, _ => []
  end.
(** arithmetic_fallback.go:234-248: round 0. *)
Definition mround0 (v : Z) (ys : list Z) : list Z :=
  let '(c1, c0) := mul64 v (hd 0 ys) in
  let m := (c0 * bls_inv) mod B64 in
  let c2 := madd0 m (hd 0 bls_q) c0 in
  mrow0 v m (tl ys) (tl bls_q) c1 c2.
(** arithmetic_fallback.go:231-468 (mul, mulAssign). *)
Definition fb_mul (x y : list Z) : list Z :=
  match x with
  | x0 :: xs => fb_reduce (fold_left (fun t v => mround v y t) xs (mround0 x0 y))
  | [] => []
  end.

(** arithmetic_fallback.go:470-571 (square), line by line. *)
Definition fb_square (x : list Z) : list Z :=
  match x with
  | [x0; x1; x2; x3; x4; x5] =>
      (* round 0 *)
      let '(u, p0) := mul64 x0 x0 in
      let m := (p0 * bls_inv) mod B64 in
      let C := madd0 m 13402431016077863595 p0 in
      let '(t, u, v) := madd1sb x0 x1 u in
      let '(C, p0) := madd2 m 2210141511517208575 v C in
      let '(t, u, v) := madd1s x0 x2 t u in
      let '(C, p1) := madd2 m 7435674573564081700 v C in
      let '(t, u, v) := madd1s x0 x3 t u in
      let '(C, p2) := madd2 m 7239337960414712511 v C in
      let '(t, u, v) := madd1s x0 x4 t u in
      let '(C, p3) := madd2 m 5412103778470702295 v C in
      let '(_, u, v) := madd1s x0 x5 t u in
      let '(p5, p4) := madd3 m 1873798617647539866 v C u in
      (* round 1 *)
      let m := (p0 * bls_inv) mod B64 in
      let C := madd0 m 13402431016077863595 p0 in
      let '(u, v) := madd1 x1 x1 p1 in
      let '(C, p0) := madd2 m 2210141511517208575 v C in
      let '(t, u, v) := madd2sb x1 x2 p2 u in
      let '(C, p1) := madd2 m 7435674573564081700 v C in
      let '(t, u, v) := madd2s x1 x3 p3 t u in
      let '(C, p2) := madd2 m 7239337960414712511 v C in
      let '(t, u, v) := madd2s x1 x4 p4 t u in
      let '(C, p3) := madd2 m 5412103778470702295 v C in
      let '(_, u, v) := madd2s x1 x5 p5 t u in
      let '(p5, p4) := madd3 m 1873798617647539866 v C u in
      (* round 2 *)
      let m := (p0 * bls_inv) mod B64 in
      let C := madd0 m 13402431016077863595 p0 in
      let '(C, p0) := madd2 m 2210141511517208575 p1 C in
      let '(u, v) := madd1 x2 x2 p2 in
      let '(C, p1) := madd2 m 7435674573564081700 v C in
      let '(t, u, v) := madd2sb x2 x3 p3 u in
      let '(C, p2) := madd2 m 7239337960414712511 v C in
      let '(t, u, v) := madd2s x2 x4 p4 t u in
      let '(C, p3) := madd2 m 5412103778470702295 v C in
      let '(_, u, v) := madd2s x2 x5 p5 t u in
      let '(p5, p4) := madd3 m 1873798617647539866 v C u in
      (* round 3 *)
      let m := (p0 * bls_inv) mod B64 in
      let C := madd0 m 13402431016077863595 p0 in
      let '(C, p0) := madd2 m 2210141511517208575 p1 C in
      let '(C, p1) := madd2 m 7435674573564081700 p2 C in
      let '(u, v) := madd1 x3 x3 p3 in
      let '(C, p2) := madd2 m 7239337960414712511 v C in
      let '(t, u, v) := madd2sb x3 x4 p4 u in
      let '(C, p3) := madd2 m 5412103778470702295 v C in
      let '(_, u, v) := madd2s x3 x5 p5 t u in
      let '(p5, p4) := madd3 m 1873798617647539866 v C u in
      (* round 4 *)
      let m := (p0 * bls_inv) mod B64 in
      let C := madd0 m 13402431016077863595 p0 in
      let '(C, p0) := madd2 m 2210141511517208575 p1 C in
      let '(C, p1) := madd2 m 7435674573564081700 p2 C in
      let '(C, p2) := madd2 m 7239337960414712511 p3 C in
      let '(u, v) := madd1 x4 x4 p4 in
      let '(C, p3) := madd2 m 5412103778470702295 v C in
      let '(_, u, v) := madd2sb x4 x5 p5 u in
      let '(p5, p4) := madd3 m 1873798617647539866 v C u in
      (* round 5 *)
      let m := (p0 * bls_inv) mod B64 in
      let C := madd0 m 13402431016077863595 p0 in
      let '(C, p0) := madd2 m 2210141511517208575 p1 C in
      let '(C, p1) := madd2 m 7435674573564081700 p2 C in
      let '(C, p2) := madd2 m 7239337960414712511 p3 C in
      let '(C, p3) := madd2 m 5412103778470702295 p4 C in
      let '(u, v) := madd1 x5 x5 p5 in
      let '(p5, p4) := madd3 m 1873798617647539866 v C u in
      fb_reduce [p0; p1; p2; p3; p4; p5]
  | _ => []
  end.
