(** Semantics of the straight-line 64-bit word code of /repo/pasta/pasta_fp.go
    and pasta_fq.go (generated there by fiat-crypto).  No proofs in this file. *)
Require Import ZArith List Bool.
Import ListNotations.
Open Scope Z_scope.

Definition w64 (x : Z) : Z := x mod 2 ^ 64.
Definition w32 (x : Z) : Z := x mod 2 ^ 32.

(* pasta_fp.go:23-32, FiatPastaFpAddCarryXU64; pasta_fq.go:20-29 is a copy:
   the sum and the carry *)
Definition addcarryx (arg1 arg2 arg3 : Z) : Z * Z :=
  let tmp := w64 (arg3 + arg1) in
  let out1 := w64 (arg2 + tmp) in
  (out1, if (out1 <? arg2) || (tmp <? arg3) then 1 else 0).
(* pasta_fp.go:48-56, FiatPastaFpSubBorrowXU64; pasta_fq.go:45-53 *)
Definition subborrowx (arg1 arg2 arg3 : Z) : Z * Z :=
  let tmp := w64 (arg3 + arg1) in
  let out1 := w64 (arg2 - tmp) in
  (out1, if (arg2 <? out1) || (tmp <? arg3) then 1 else 0).
(* pasta_fp.go:71-87, FiatPastaFpMulXU64; pasta_fq.go:68-84: low and high word *)
Definition mulx (a b : Z) : Z * Z :=
  let a_lo := w32 a in
  let a_hi := w32 (Z.shiftr a 32) in
  let b_lo := w32 b in
  let b_hi := w32 (Z.shiftr b 32) in
  let a_x_b_hi := w64 (a_hi * b_hi) in
  let a_x_b_mid := w64 (a_hi * b_lo) in
  let b_x_a_mid := w64 (b_hi * a_lo) in
  let a_x_b_lo := w64 (a_lo * b_lo) in
  let carry_bit := Z.shiftr (w64 (w64 (w32 a_x_b_mid + w32 b_x_a_mid) + Z.shiftr a_x_b_lo 32)) 32 in
  let multhi := w64 (w64 (w64 (a_x_b_hi + Z.shiftr a_x_b_mid 32) + Z.shiftr b_x_a_mid 32) + carry_bit) in
  (w64 (a * b), multhi).
(* pasta_fp.go:101-108, FiatPastaFpCmovznzU64; pasta_fq.go:98-105.  arg1 is a
   uint8; 0 - arg1 is converted to int8 and sign extended. *)
Definition cmovznz (arg1 arg2 arg3 : Z) : Z :=
  let m := (0 - arg1) mod 2 ^ 8 in
  let x2 := w64 (if m <? 128 then m else m - 256) in
  let nx2 := 2 ^ 64 - 1 - x2 in
  Z.lor (Z.land x2 arg3) (Z.land nx2 arg2).

(** A register, a constant, or a register masked with a constant. *)
Inductive opd : Type := R (n : nat) | C (k : Z) | N (n : nat) (k : Z).
(** The functions above, a wrapping addition, a copy.  Every instruction appends
    what it computes to the list of registers. *)
Inductive ins : Type :=
| IMul (a b : opd)
| IAddC (c a b : opd)
| ISubB (c a b : opd)
| ICmov (c a b : opd)
| IAdd (a b : opd)
| IMov (a : opd).

Definition oval (x : list Z) (o : opd) : Z :=
  match o with
  | R n => nth n x 0
  | C k => k
  | N n k => Z.land (nth n x 0) k
  end.
Definition pair2 (p : Z * Z) : list Z := [fst p; snd p].
Definition istep (x : list Z) (i : ins) : list Z :=
  x ++ match i with
       | IMul a b => pair2 (mulx (oval x a) (oval x b))
       | IAddC c a b => pair2 (addcarryx (oval x c) (oval x a) (oval x b))
       | ISubB c a b => pair2 (subborrowx (oval x c) (oval x a) (oval x b))
       | ICmov c a b => [cmovznz (oval x c) (oval x a) (oval x b)]
       | IAdd a b => [w64 (oval x a + oval x b)]
       | IMov a => [oval x a]
       end.
Definition wexec (code : list ins) (out : list nat) (x : list Z) : list Z :=
  let e := fold_left istep code x in map (fun n => nth n e 0) out.
