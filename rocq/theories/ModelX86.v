(** * The amd64 instructions used by bls12_381/bls/arithmetic_x86.s.

    The file uses twelve instructions and no jump.  Each is given the meaning of
    the Intel manual (vol. 2), including the flags CF and OF it leaves.  The
    operand order is that of the Go assembler: the destination comes last. *)
From Coq Require Import ZArith List Bool.
From Verif Require Import ModelBlsF.
Import ListNotations.
Local Open Scope Z_scope.

(** Places an instruction reads or writes: the registers, the 8-byte slots of
    the stack frame (St n is 8n(SP)), word n of the two field elements the
    function reads (Ar, Br) and of the one it writes (Out).

    In the code Ar, Br and Out are n(DI) and n(SI) after a
    [MOVQ x+k(FP), DI]; tools/mkbls.py resolves the pointer registers, and checks
    that no argument word is read after the first result word is written, so
    that the result does not depend on whether the pointers coincide. *)
Inductive loc :=
| AX | BX | CX | DX | SI | DI | R8 | R9 | R10 | R11 | R12 | R13 | R14 | R15
| St (n : nat) | Ar (n : nat) | Br (n : nat) | Out (n : nat).

(** Position of a place in the list holding the state: 14 registers, 3 stack
    slots, 6 + 6 argument words, 6 result words. *)
Definition ix (l : loc) : nat :=
  match l with
  | AX => 0 | BX => 1 | CX => 2 | DX => 3 | SI => 4 | DI => 5 | R8 => 6 | R9 => 7
  | R10 => 8 | R11 => 9 | R12 => 10 | R13 => 11 | R14 => 12 | R15 => 13
  | St n => 14 + n | Ar n => 17 + n | Br n => 23 + n | Out n => 29 + n
  end%nat.

(** Source operands: a place, a constant, a word of ·modulus(SB), ·inp(SB). *)
Inductive src := L (l : loc) | K (z : Z) | Mw (n : nat) | Inp.

Inductive xins :=
| MOVQ (s : src) (d : loc)
| ADDQ (s : src) (d : loc) | ADCQ (s : src) (d : loc)
| ADCXQ (s : src) (d : loc) | ADOXQ (s : src) (d : loc)
| SUBQ (s : src) (d : loc) | SBBQ (s : src) (d : loc)
| MULQ (s : src) | MULXQ (s : src) (lo hi : loc)
| XORQ (s : src) (d : loc) | CMOVQCC (s : src) (d : loc).

Record xst := mkX { mem : list Z; cf : Z; ovf : Z }.

Fixpoint upd (l : list Z) (n : nat) (v : Z) : list Z :=
  match l, n with
  | [], _ => []
  | _ :: r, O => v :: r
  | x :: r, S n' => x :: upd r n' v
  end.

Definition rd (st : xst) (s : src) : Z :=
  match s with
  | L l => nth (ix l) (mem st) 0
  | K z => z
  | Mw n => nth n bls_q 0
  | Inp => bls_inv
  end.
Definition wr (st : xst) (d : loc) (v : Z) : list Z := upd (mem st) (ix d) v.

(** sign bit, and the overflow flag of an addition / a subtraction *)
Definition sgn (x : Z) : bool := 9223372036854775808 <=? x.
Definition ofl_add (x y r : Z) : Z :=
  if Bool.eqb (sgn x) (sgn y) && negb (Bool.eqb (sgn r) (sgn x)) then 1 else 0.
Definition ofl_sub (x y r : Z) : Z :=
  if negb (Bool.eqb (sgn x) (sgn y)) && negb (Bool.eqb (sgn r) (sgn x)) then 1 else 0.

(** ADD / ADC: d := d + s (+ CF); CF and OF are set. *)
Definition xadd (st : xst) (s : src) (d : loc) (c : Z) : xst :=
  let '(r, k) := add64 (rd st (L d)) (rd st s) c in
  mkX (wr st d r) k (ofl_add (rd st (L d)) (rd st s) r).
(** SUB / SBB: d := d - s (- CF). *)
Definition xsub (st : xst) (s : src) (d : loc) (b : Z) : xst :=
  let '(r, k) := sub64 (rd st (L d)) (rd st s) b in
  mkX (wr st d r) k (ofl_sub (rd st (L d)) (rd st s) r).

Definition xstep (st : xst) (i : xins) : xst :=
  match i with
  | MOVQ s d => mkX (wr st d (rd st s)) (cf st) (ovf st)
  | ADDQ s d => xadd st s d 0
  | ADCQ s d => xadd st s d (cf st)
  | ADCXQ s d =>                    (* carry chain on CF, OF kept *)
      let '(r, k) := add64 (rd st (L d)) (rd st s) (cf st) in
      mkX (wr st d r) k (ovf st)
  | ADOXQ s d =>                    (* carry chain on OF, CF kept *)
      let '(r, k) := add64 (rd st (L d)) (rd st s) (ovf st) in
      mkX (wr st d r) (cf st) k
  | SUBQ s d => xsub st s d 0
  | SBBQ s d => xsub st s d (cf st)
  | MULQ s =>                       (* DX:AX := AX * s; CF = OF = (DX <> 0) *)
      let '(h, l) := mul64 (rd st (L AX)) (rd st s) in
      let f := if h =? 0 then 0 else 1 in
      mkX (upd (wr st AX l) (ix DX) h) f f
  | MULXQ s lo hi =>                (* hi:lo := DX * s; flags kept *)
      let '(h, l) := mul64 (rd st (L DX)) (rd st s) in
      mkX (upd (wr st lo l) (ix hi) h) (cf st) (ovf st)
  | XORQ s d => mkX (wr st d (Z.lxor (rd st (L d)) (rd st s))) 0 0
  | CMOVQCC s d => if cf st =? 0 then mkX (wr st d (rd st s)) (cf st) (ovf st) else st
  end.

Definition xrun (code : list xins) (st : xst) : xst := fold_left xstep code st.

(** A call: registers, stack and result hold anything ([junk], 17 words), the
    flags too; the result is what is in the result words afterwards. *)
Definition xstart (junk : list Z) (c o : Z) (a b : list Z) : xst :=
  mkX (junk ++ a ++ b ++ [0; 0; 0; 0; 0; 0]) c o.
Definition xresult (st : xst) : list Z := skipn 29 (mem st).
Definition xcall (code : list xins) (junk : list Z) (c o : Z) (a b : list Z) : list Z :=
  xresult (xrun code (xstart junk c o a b)).

(** The stack slots an instruction names. *)
Definition loc_slot (l : loc) : list nat := match l with St n => [n] | _ => [] end.
Definition src_slot (s : src) : list nat := match s with L l => loc_slot l | _ => [] end.
Definition ins_slots (i : xins) : list nat :=
  match i with
  | MOVQ s d | ADDQ s d | ADCQ s d | ADCXQ s d | ADOXQ s d | SUBQ s d | SBBQ s d
  | XORQ s d | CMOVQCC s d => src_slot s ++ loc_slot d
  | MULQ s => src_slot s
  | MULXQ s lo hi => src_slot s ++ loc_slot lo ++ loc_slot hi
  end.
