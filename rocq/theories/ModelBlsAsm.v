(** * bls12_381/bls/arithmetic_x86.s, instruction by instruction.

    Generated by tools/mkbls.py from the assembly text: one entry per
    instruction, in order.  The loads of the argument pointers
    ([MOVQ x+k(FP), R]) are resolved by the generator and left out; RET is the
    end of the list. *)
From Coq Require Import ZArith List.
From Verif Require Import ModelX86.
Import ListNotations.
Local Open Scope Z_scope.

(** arithmetic_x86.s:7-61 (addAssign); declared frame: 0 bytes. *)
Definition asm_addAssign_frame : Z := 0.
Definition asm_addAssign : list xins :=
  [MOVQ (L (Ar 0)) R8; MOVQ (L (Ar 1)) R9; MOVQ (L (Ar 2)) R10; MOVQ (L (Ar 3)) R11;
   MOVQ (L (Ar 4)) R12; MOVQ (L (Ar 5)) R13; ADDQ (L (Br 0)) R8; ADCQ (L (Br 1)) R9;
   ADCQ (L (Br 2)) R10; ADCQ (L (Br 3)) R11; ADCQ (L (Br 4)) R12; ADCQ (L (Br 5)) R13;
   MOVQ (L R8) R14; MOVQ (L R9) R15; MOVQ (L R10) CX; MOVQ (L R11) DX; MOVQ (L R12) SI;
   MOVQ (L R13) BX; MOVQ (K 13402431016077863595) AX; SUBQ (L AX) R14;
   MOVQ (K 2210141511517208575) AX; SBBQ (L AX) R15; MOVQ (K 7435674573564081700) AX;
   SBBQ (L AX) CX; MOVQ (K 7239337960414712511) AX; SBBQ (L AX) DX;
   MOVQ (K 5412103778470702295) AX; SBBQ (L AX) SI; MOVQ (K 1873798617647539866) AX;
   SBBQ (L AX) BX; CMOVQCC (L R14) R8; CMOVQCC (L R15) R9; CMOVQCC (L CX) R10;
   CMOVQCC (L DX) R11; CMOVQCC (L SI) R12; CMOVQCC (L BX) R13; MOVQ (L R8) (Out 0);
   MOVQ (L R9) (Out 1); MOVQ (L R10) (Out 2); MOVQ (L R11) (Out 3); MOVQ (L R12) (Out 4);
   MOVQ (L R13) (Out 5)].

(** arithmetic_x86.s:68-123 (add); declared frame: 0 bytes. *)
Definition asm_add_frame : Z := 0.
Definition asm_add : list xins :=
  [MOVQ (L (Ar 0)) R8; MOVQ (L (Ar 1)) R9; MOVQ (L (Ar 2)) R10; MOVQ (L (Ar 3)) R11;
   MOVQ (L (Ar 4)) R12; MOVQ (L (Ar 5)) R13; ADDQ (L (Br 0)) R8; ADCQ (L (Br 1)) R9;
   ADCQ (L (Br 2)) R10; ADCQ (L (Br 3)) R11; ADCQ (L (Br 4)) R12; ADCQ (L (Br 5)) R13;
   MOVQ (L R8) R14; MOVQ (L R9) R15; MOVQ (L R10) CX; MOVQ (L R11) DX; MOVQ (L R12) SI;
   MOVQ (L R13) BX; MOVQ (K 13402431016077863595) DI; SUBQ (L DI) R14;
   MOVQ (K 2210141511517208575) DI; SBBQ (L DI) R15; MOVQ (K 7435674573564081700) DI;
   SBBQ (L DI) CX; MOVQ (K 7239337960414712511) DI; SBBQ (L DI) DX;
   MOVQ (K 5412103778470702295) DI; SBBQ (L DI) SI; MOVQ (K 1873798617647539866) DI;
   SBBQ (L DI) BX; CMOVQCC (L R14) R8; CMOVQCC (L R15) R9; CMOVQCC (L CX) R10;
   CMOVQCC (L DX) R11; CMOVQCC (L SI) R12; CMOVQCC (L BX) R13; MOVQ (L R8) (Out 0);
   MOVQ (L R9) (Out 1); MOVQ (L R10) (Out 2); MOVQ (L R11) (Out 3); MOVQ (L R12) (Out 4);
   MOVQ (L R13) (Out 5)].

(** arithmetic_x86.s:129-158 (ladd); declared frame: 0 bytes. *)
Definition asm_ladd_frame : Z := 0.
Definition asm_ladd : list xins :=
  [MOVQ (L (Ar 0)) R8; MOVQ (L (Ar 1)) R9; MOVQ (L (Ar 2)) R10; MOVQ (L (Ar 3)) R11;
   MOVQ (L (Ar 4)) R12; MOVQ (L (Ar 5)) R13; ADDQ (L (Br 0)) R8; ADCQ (L (Br 1)) R9;
   ADCQ (L (Br 2)) R10; ADCQ (L (Br 3)) R11; ADCQ (L (Br 4)) R12; ADCQ (L (Br 5)) R13;
   MOVQ (L R8) (Out 0); MOVQ (L R9) (Out 1); MOVQ (L R10) (Out 2); MOVQ (L R11) (Out 3);
   MOVQ (L R12) (Out 4); MOVQ (L R13) (Out 5)].

(** arithmetic_x86.s:164-193 (laddAssign); declared frame: 0 bytes. *)
Definition asm_laddAssign_frame : Z := 0.
Definition asm_laddAssign : list xins :=
  [MOVQ (L (Ar 0)) R8; MOVQ (L (Ar 1)) R9; MOVQ (L (Ar 2)) R10; MOVQ (L (Ar 3)) R11;
   MOVQ (L (Ar 4)) R12; MOVQ (L (Ar 5)) R13; ADDQ (L (Br 0)) R8; ADCQ (L (Br 1)) R9;
   ADCQ (L (Br 2)) R10; ADCQ (L (Br 3)) R11; ADCQ (L (Br 4)) R12; ADCQ (L (Br 5)) R13;
   MOVQ (L R8) (Out 0); MOVQ (L R9) (Out 1); MOVQ (L R10) (Out 2); MOVQ (L R11) (Out 3);
   MOVQ (L R12) (Out 4); MOVQ (L R13) (Out 5)].

(** arithmetic_x86.s:199-247 (sub); declared frame: 0 bytes. *)
Definition asm_sub_frame : Z := 0.
Definition asm_sub : list xins :=
  [XORQ (L AX) AX; MOVQ (L (Ar 0)) R8; MOVQ (L (Ar 1)) R9; MOVQ (L (Ar 2)) R10;
   MOVQ (L (Ar 3)) R11; MOVQ (L (Ar 4)) R12; MOVQ (L (Ar 5)) R13; SUBQ (L (Br 0)) R8;
   SBBQ (L (Br 1)) R9; SBBQ (L (Br 2)) R10; SBBQ (L (Br 3)) R11; SBBQ (L (Br 4)) R12;
   SBBQ (L (Br 5)) R13; MOVQ (K 13402431016077863595) R14; MOVQ (K 2210141511517208575) R15;
   MOVQ (K 7435674573564081700) CX; MOVQ (K 7239337960414712511) DX;
   MOVQ (K 5412103778470702295) SI; MOVQ (K 1873798617647539866) BX; CMOVQCC (L AX) R14;
   CMOVQCC (L AX) R15; CMOVQCC (L AX) CX; CMOVQCC (L AX) DX; CMOVQCC (L AX) SI;
   CMOVQCC (L AX) BX; ADDQ (L R14) R8; ADCQ (L R15) R9; ADCQ (L CX) R10; ADCQ (L DX) R11;
   ADCQ (L SI) R12; ADCQ (L BX) R13; MOVQ (L R8) (Out 0); MOVQ (L R9) (Out 1);
   MOVQ (L R10) (Out 2); MOVQ (L R11) (Out 3); MOVQ (L R12) (Out 4); MOVQ (L R13) (Out 5)].

(** arithmetic_x86.s:253-301 (subAssign); declared frame: 0 bytes. *)
Definition asm_subAssign_frame : Z := 0.
Definition asm_subAssign : list xins :=
  [XORQ (L AX) AX; MOVQ (L (Ar 0)) R8; MOVQ (L (Ar 1)) R9; MOVQ (L (Ar 2)) R10;
   MOVQ (L (Ar 3)) R11; MOVQ (L (Ar 4)) R12; MOVQ (L (Ar 5)) R13; SUBQ (L (Br 0)) R8;
   SBBQ (L (Br 1)) R9; SBBQ (L (Br 2)) R10; SBBQ (L (Br 3)) R11; SBBQ (L (Br 4)) R12;
   SBBQ (L (Br 5)) R13; MOVQ (K 13402431016077863595) R14; MOVQ (K 2210141511517208575) R15;
   MOVQ (K 7435674573564081700) CX; MOVQ (K 7239337960414712511) DX;
   MOVQ (K 5412103778470702295) SI; MOVQ (K 1873798617647539866) BX; CMOVQCC (L AX) R14;
   CMOVQCC (L AX) R15; CMOVQCC (L AX) CX; CMOVQCC (L AX) DX; CMOVQCC (L AX) SI;
   CMOVQCC (L AX) BX; ADDQ (L R14) R8; ADCQ (L R15) R9; ADCQ (L CX) R10; ADCQ (L DX) R11;
   ADCQ (L SI) R12; ADCQ (L BX) R13; MOVQ (L R8) (Out 0); MOVQ (L R9) (Out 1);
   MOVQ (L R10) (Out 2); MOVQ (L R11) (Out 3); MOVQ (L R12) (Out 4); MOVQ (L R13) (Out 5)].

(** arithmetic_x86.s:307-334 (lsubAssign); declared frame: 0 bytes. *)
Definition asm_lsubAssign_frame : Z := 0.
Definition asm_lsubAssign : list xins :=
  [MOVQ (L (Ar 0)) R8; MOVQ (L (Ar 1)) R9; MOVQ (L (Ar 2)) R10; MOVQ (L (Ar 3)) R11;
   MOVQ (L (Ar 4)) R12; MOVQ (L (Ar 5)) R13; SUBQ (L (Br 0)) R8; SBBQ (L (Br 1)) R9;
   SBBQ (L (Br 2)) R10; SBBQ (L (Br 3)) R11; SBBQ (L (Br 4)) R12; SBBQ (L (Br 5)) R13;
   MOVQ (L R8) (Out 0); MOVQ (L R9) (Out 1); MOVQ (L R10) (Out 2); MOVQ (L R11) (Out 3);
   MOVQ (L R12) (Out 4); MOVQ (L R13) (Out 5)].

(** arithmetic_x86.s:339-390 (double); declared frame: 0 bytes. *)
Definition asm_double_frame : Z := 0.
Definition asm_double : list xins :=
  [MOVQ (L (Ar 0)) R8; MOVQ (L (Ar 1)) R9; MOVQ (L (Ar 2)) R10; MOVQ (L (Ar 3)) R11;
   MOVQ (L (Ar 4)) R12; MOVQ (L (Ar 5)) R13; ADDQ (L R8) R8; ADCQ (L R9) R9; ADCQ (L R10) R10;
   ADCQ (L R11) R11; ADCQ (L R12) R12; ADCQ (L R13) R13; MOVQ (L R8) R14; MOVQ (L R9) R15;
   MOVQ (L R10) CX; MOVQ (L R11) DX; MOVQ (L R12) SI; MOVQ (L R13) BX;
   MOVQ (K 13402431016077863595) DI; SUBQ (L DI) R14; MOVQ (K 2210141511517208575) DI;
   SBBQ (L DI) R15; MOVQ (K 7435674573564081700) DI; SBBQ (L DI) CX;
   MOVQ (K 7239337960414712511) DI; SBBQ (L DI) DX; MOVQ (K 5412103778470702295) DI;
   SBBQ (L DI) SI; MOVQ (K 1873798617647539866) DI; SBBQ (L DI) BX; CMOVQCC (L R14) R8;
   CMOVQCC (L R15) R9; CMOVQCC (L CX) R10; CMOVQCC (L DX) R11; CMOVQCC (L SI) R12;
   CMOVQCC (L BX) R13; MOVQ (L R8) (Out 0); MOVQ (L R9) (Out 1); MOVQ (L R10) (Out 2);
   MOVQ (L R11) (Out 3); MOVQ (L R12) (Out 4); MOVQ (L R13) (Out 5)].

(** arithmetic_x86.s:396-445 (doubleAssign); declared frame: 0 bytes. *)
Definition asm_doubleAssign_frame : Z := 0.
Definition asm_doubleAssign : list xins :=
  [MOVQ (L (Ar 0)) R8; MOVQ (L (Ar 1)) R9; MOVQ (L (Ar 2)) R10; MOVQ (L (Ar 3)) R11;
   MOVQ (L (Ar 4)) R12; MOVQ (L (Ar 5)) R13; ADDQ (L R8) R8; ADCQ (L R9) R9; ADCQ (L R10) R10;
   ADCQ (L R11) R11; ADCQ (L R12) R12; ADCQ (L R13) R13; MOVQ (L R8) R14; MOVQ (L R9) R15;
   MOVQ (L R10) CX; MOVQ (L R11) DX; MOVQ (L R12) SI; MOVQ (L R13) BX;
   MOVQ (K 13402431016077863595) AX; SUBQ (L AX) R14; MOVQ (K 2210141511517208575) AX;
   SBBQ (L AX) R15; MOVQ (K 7435674573564081700) AX; SBBQ (L AX) CX;
   MOVQ (K 7239337960414712511) AX; SBBQ (L AX) DX; MOVQ (K 5412103778470702295) AX;
   SBBQ (L AX) SI; MOVQ (K 1873798617647539866) AX; SBBQ (L AX) BX; CMOVQCC (L R14) R8;
   CMOVQCC (L R15) R9; CMOVQCC (L CX) R10; CMOVQCC (L DX) R11; CMOVQCC (L SI) R12;
   CMOVQCC (L BX) R13; MOVQ (L R8) (Out 0); MOVQ (L R9) (Out 1); MOVQ (L R10) (Out 2);
   MOVQ (L R11) (Out 3); MOVQ (L R12) (Out 4); MOVQ (L R13) (Out 5)].

(** arithmetic_x86.s:451-479 (ldouble); declared frame: 0 bytes. *)
Definition asm_ldouble_frame : Z := 0.
Definition asm_ldouble : list xins :=
  [MOVQ (L (Ar 0)) R8; MOVQ (L (Ar 1)) R9; MOVQ (L (Ar 2)) R10; MOVQ (L (Ar 3)) R11;
   MOVQ (L (Ar 4)) R12; MOVQ (L (Ar 5)) R13; ADDQ (L R8) R8; ADCQ (L R9) R9; ADCQ (L R10) R10;
   ADCQ (L R11) R11; ADCQ (L R12) R12; ADCQ (L R13) R13; MOVQ (L R8) (Out 0);
   MOVQ (L R9) (Out 1); MOVQ (L R10) (Out 2); MOVQ (L R11) (Out 3); MOVQ (L R12) (Out 4);
   MOVQ (L R13) (Out 5)].

(** arithmetic_x86.s:483-509 (_neg); declared frame: 0 bytes. *)
Definition asm_neg_frame : Z := 0.
Definition asm_neg : list xins :=
  [MOVQ (K 13402431016077863595) R8; MOVQ (K 2210141511517208575) R9;
   MOVQ (K 7435674573564081700) R10; MOVQ (K 7239337960414712511) R11;
   MOVQ (K 5412103778470702295) R12; MOVQ (K 1873798617647539866) R13; SUBQ (L (Ar 0)) R8;
   SBBQ (L (Ar 1)) R9; SBBQ (L (Ar 2)) R10; SBBQ (L (Ar 3)) R11; SBBQ (L (Ar 4)) R12;
   SBBQ (L (Ar 5)) R13; MOVQ (L R8) (Out 0); MOVQ (L R9) (Out 1); MOVQ (L R10) (Out 2);
   MOVQ (L R11) (Out 3); MOVQ (L R12) (Out 4); MOVQ (L R13) (Out 5)].

(** arithmetic_x86.s:513-1363 (mulNoADX); declared frame: 16 bytes. *)
Definition asm_mulNoADX_frame : Z := 16.
Definition asm_mulNoADX : list xins :=
  [MOVQ (K 0) R9; MOVQ (K 0) R10; MOVQ (K 0) R11; MOVQ (K 0) R12; MOVQ (K 0) R13; MOVQ (K 0) BX;
   MOVQ (L (Br 0)) CX; MOVQ (L (Ar 0)) AX; MULQ (L CX); MOVQ (L AX) (St 0); MOVQ (L DX) R8;
   MOVQ (L (Ar 1)) AX; MULQ (L CX); ADDQ (L AX) R8; ADCQ (L DX) R9; MOVQ (L (Ar 2)) AX;
   MULQ (L CX); ADDQ (L AX) R9; ADCQ (L DX) R10; MOVQ (L (Ar 3)) AX; MULQ (L CX);
   ADDQ (L AX) R10; ADCQ (L DX) R11; MOVQ (L (Ar 4)) AX; MULQ (L CX); ADDQ (L AX) R11;
   ADCQ (L DX) R12; MOVQ (L (Ar 5)) AX; MULQ (L CX); ADDQ (L AX) R12; ADCQ (L DX) R13;
   MOVQ (L (Br 1)) CX; MOVQ (L (Ar 0)) AX; MULQ (L CX); ADDQ (L AX) R8; ADCQ (L DX) R9;
   ADCQ (K 0) R10; ADCQ (K 0) BX; MOVQ (L R8) (St 1); MOVQ (L (Ar 1)) AX; MULQ (L CX);
   ADDQ (L AX) R9; ADCQ (L DX) R10; ADCQ (L BX) R11; MOVQ (K 0) BX; ADCQ (K 0) BX;
   MOVQ (L R9) R8; MOVQ (L (Ar 2)) AX; MULQ (L CX); ADDQ (L AX) R10; ADCQ (L DX) R11;
   ADCQ (L BX) R12; MOVQ (K 0) BX; ADCQ (K 0) BX; MOVQ (L R10) R9; MOVQ (L (Ar 3)) AX;
   MULQ (L CX); ADDQ (L AX) R11; ADCQ (L DX) R12; ADCQ (L BX) R13; MOVQ (K 0) BX;
   ADCQ (K 0) BX; MOVQ (L R11) R10; MOVQ (L (Ar 4)) AX; MULQ (L CX); ADDQ (L AX) R12;
   ADCQ (L DX) R13; ADCQ (K 0) BX; MOVQ (L R12) R11; MOVQ (L (Ar 5)) AX; MULQ (L CX);
   ADDQ (L AX) R13; ADCQ (L DX) BX; MOVQ (L R13) R12; MOVQ (L BX) R13; MOVQ (L (Br 2)) CX;
   MOVQ (K 0) BX; MOVQ (L (Ar 0)) AX; MULQ (L CX); ADDQ (L AX) R8; ADCQ (L DX) R9;
   ADCQ (K 0) R10; ADCQ (K 0) BX; MOVQ (L R8) (St 2); MOVQ (L (Ar 1)) AX; MULQ (L CX);
   ADDQ (L AX) R9; ADCQ (L DX) R10; ADCQ (L BX) R11; MOVQ (K 0) BX; ADCQ (K 0) BX;
   MOVQ (L R9) R8; MOVQ (L (Ar 2)) AX; MULQ (L CX); ADDQ (L AX) R10; ADCQ (L DX) R11;
   ADCQ (L BX) R12; MOVQ (K 0) BX; ADCQ (K 0) BX; MOVQ (L R10) R9; MOVQ (L (Ar 3)) AX;
   MULQ (L CX); ADDQ (L AX) R11; ADCQ (L DX) R12; ADCQ (L BX) R13; MOVQ (K 0) BX;
   ADCQ (K 0) BX; MOVQ (L R11) R10; MOVQ (L (Ar 4)) AX; MULQ (L CX); ADDQ (L AX) R12;
   ADCQ (L DX) R13; ADCQ (K 0) BX; MOVQ (L R12) R11; MOVQ (L (Ar 5)) AX; MULQ (L CX);
   ADDQ (L AX) R13; ADCQ (L DX) BX; MOVQ (L R13) R12; MOVQ (L BX) R13; MOVQ (L (Br 3)) CX;
   MOVQ (K 0) BX; MOVQ (L (Ar 0)) AX; MULQ (L CX); ADDQ (L AX) R8; ADCQ (L DX) R9;
   ADCQ (K 0) R10; ADCQ (K 0) BX; MOVQ (L R8) R14; MOVQ (L (Ar 1)) AX; MULQ (L CX);
   ADDQ (L AX) R9; ADCQ (L DX) R10; ADCQ (L BX) R11; MOVQ (K 0) BX; ADCQ (K 0) BX;
   MOVQ (L R9) R8; MOVQ (L (Ar 2)) AX; MULQ (L CX); ADDQ (L AX) R10; ADCQ (L DX) R11;
   ADCQ (L BX) R12; MOVQ (K 0) BX; ADCQ (K 0) BX; MOVQ (L R10) R9; MOVQ (L (Ar 3)) AX;
   MULQ (L CX); ADDQ (L AX) R11; ADCQ (L DX) R12; ADCQ (L BX) R13; MOVQ (K 0) BX;
   ADCQ (K 0) BX; MOVQ (L R11) R10; MOVQ (L (Ar 4)) AX; MULQ (L CX); ADDQ (L AX) R12;
   ADCQ (L DX) R13; ADCQ (K 0) BX; MOVQ (L R12) R11; MOVQ (L (Ar 5)) AX; MULQ (L CX);
   ADDQ (L AX) R13; ADCQ (L DX) BX; MOVQ (L R13) R12; MOVQ (L BX) R13; MOVQ (L (Br 4)) CX;
   MOVQ (K 0) BX; MOVQ (L (Ar 0)) AX; MULQ (L CX); ADDQ (L AX) R8; ADCQ (L DX) R9;
   ADCQ (K 0) R10; ADCQ (K 0) BX; MOVQ (L R8) R15; MOVQ (L (Ar 1)) AX; MULQ (L CX);
   ADDQ (L AX) R9; ADCQ (L DX) R10; ADCQ (L BX) R11; MOVQ (K 0) BX; ADCQ (K 0) BX;
   MOVQ (L R9) R8; MOVQ (L (Ar 2)) AX; MULQ (L CX); ADDQ (L AX) R10; ADCQ (L DX) R11;
   ADCQ (L BX) R12; MOVQ (K 0) BX; ADCQ (K 0) BX; MOVQ (L R10) R9; MOVQ (L (Ar 3)) AX;
   MULQ (L CX); ADDQ (L AX) R11; ADCQ (L DX) R12; ADCQ (L BX) R13; MOVQ (K 0) BX;
   ADCQ (K 0) BX; MOVQ (L R11) R10; MOVQ (L (Ar 4)) AX; MULQ (L CX); ADDQ (L AX) R12;
   ADCQ (L DX) R13; ADCQ (K 0) BX; MOVQ (L R12) R11; MOVQ (L (Ar 5)) AX; MULQ (L CX);
   ADDQ (L AX) R13; ADCQ (L DX) BX; MOVQ (L R13) R12; MOVQ (L BX) R13; MOVQ (L (Br 5)) CX;
   MOVQ (K 0) BX; MOVQ (L (Ar 0)) AX; MULQ (L CX); ADDQ (L AX) R8; ADCQ (L DX) R9;
   ADCQ (K 0) R10; ADCQ (K 0) BX; MOVQ (L (Ar 1)) AX; MULQ (L CX); ADDQ (L AX) R9;
   ADCQ (L DX) R10; ADCQ (L BX) R11; MOVQ (K 0) BX; ADCQ (K 0) BX; MOVQ (L (Ar 2)) AX;
   MULQ (L CX); ADDQ (L AX) R10; ADCQ (L DX) R11; ADCQ (L BX) R12; MOVQ (K 0) BX;
   ADCQ (K 0) BX; MOVQ (L (Ar 3)) AX; MULQ (L CX); ADDQ (L AX) R11; ADCQ (L DX) R12;
   ADCQ (L BX) R13; MOVQ (K 0) BX; ADCQ (K 0) BX; MOVQ (L (Ar 4)) AX; MULQ (L CX);
   ADDQ (L AX) R12; ADCQ (L DX) R13; ADCQ (K 0) BX; MOVQ (L (Ar 5)) AX; MULQ (L CX);
   ADDQ (L AX) R13; ADCQ (L DX) BX; MOVQ (L (St 0)) SI; MOVQ (L (St 1)) DI; MOVQ (L (St 2)) CX;
   MOVQ (L R13) (St 0); MOVQ (L BX) (St 1); MOVQ (L SI) AX; MULQ Inp; MOVQ (L AX) BX;
   MOVQ (K 0) R13; MOVQ (Mw 0) AX; MULQ (L BX); ADCQ (L DX) R13; MOVQ (Mw 1) AX; MULQ (L BX);
   ADDQ (L AX) DI; ADCQ (K 0) DX; ADDQ (L R13) DI; MOVQ (K 0) R13; ADCQ (L DX) R13;
   MOVQ (Mw 2) AX; MULQ (L BX); ADDQ (L AX) CX; ADCQ (K 0) DX; ADDQ (L R13) CX; MOVQ (K 0) R13;
   ADCQ (L DX) R13; MOVQ (Mw 3) AX; MULQ (L BX); ADDQ (L AX) R14; ADCQ (K 0) DX;
   ADDQ (L R13) R14; MOVQ (K 0) R13; ADCQ (L DX) R13; MOVQ (Mw 4) AX; MULQ (L BX);
   ADDQ (L AX) R15; ADCQ (K 0) DX; ADDQ (L R13) R15; MOVQ (K 0) R13; ADCQ (L DX) R13;
   MOVQ (Mw 5) AX; MULQ (L BX); ADDQ (L AX) R8; ADCQ (K 0) DX; ADDQ (L R13) R8; ADCQ (L DX) R9;
   MOVQ (K 0) SI; ADCQ (K 0) SI; MOVQ (L DI) AX; MULQ Inp; MOVQ (L AX) BX; MOVQ (K 0) R13;
   MOVQ (Mw 0) AX; MULQ (L BX); ADCQ (L DX) R13; MOVQ (Mw 1) AX; MULQ (L BX); ADDQ (L AX) CX;
   ADCQ (K 0) DX; ADDQ (L R13) CX; MOVQ (K 0) R13; ADCQ (L DX) R13; MOVQ (Mw 2) AX;
   MULQ (L BX); ADDQ (L AX) R14; ADCQ (K 0) DX; ADDQ (L R13) R14; MOVQ (K 0) R13;
   ADCQ (L DX) R13; MOVQ (Mw 3) AX; MULQ (L BX); ADDQ (L AX) R15; ADCQ (K 0) DX;
   ADDQ (L R13) R15; MOVQ (K 0) R13; ADCQ (L DX) R13; MOVQ (Mw 4) AX; MULQ (L BX);
   ADDQ (L AX) R8; ADCQ (K 0) DX; ADDQ (L R13) R8; MOVQ (K 0) R13; ADCQ (L DX) R13;
   MOVQ (Mw 5) AX; MULQ (L BX); ADDQ (L AX) R9; ADCQ (L DX) SI; ADDQ (L R13) R9;
   ADCQ (L SI) R10; MOVQ (K 0) SI; ADCQ (K 0) SI; MOVQ (L CX) AX; MULQ Inp; MOVQ (L AX) BX;
   MOVQ (K 0) R13; MOVQ (Mw 0) AX; MULQ (L BX); ADCQ (L DX) R13; MOVQ (Mw 1) AX; MULQ (L BX);
   ADDQ (L AX) R14; ADCQ (K 0) DX; ADDQ (L R13) R14; MOVQ (K 0) R13; ADCQ (L DX) R13;
   MOVQ (Mw 2) AX; MULQ (L BX); ADDQ (L AX) R15; ADCQ (K 0) DX; ADDQ (L R13) R15;
   MOVQ (K 0) R13; ADCQ (L DX) R13; MOVQ (Mw 3) AX; MULQ (L BX); ADDQ (L AX) R8; ADCQ (K 0) DX;
   ADDQ (L R13) R8; MOVQ (K 0) R13; ADCQ (L DX) R13; MOVQ (Mw 4) AX; MULQ (L BX);
   ADDQ (L AX) R9; ADCQ (K 0) DX; ADDQ (L R13) R9; MOVQ (K 0) R13; ADCQ (L DX) R13;
   MOVQ (Mw 5) AX; MULQ (L BX); ADDQ (L AX) R10; ADCQ (L DX) SI; ADDQ (L R13) R10;
   ADCQ (L SI) R11; MOVQ (K 0) SI; ADCQ (K 0) SI; MOVQ (L R14) AX; MULQ Inp; MOVQ (L AX) BX;
   MOVQ (K 0) R13; MOVQ (Mw 0) AX; MULQ (L BX); ADCQ (L DX) R13; MOVQ (Mw 1) AX; MULQ (L BX);
   ADDQ (L AX) R15; ADCQ (K 0) DX; ADDQ (L R13) R15; MOVQ (K 0) R13; ADCQ (L DX) R13;
   MOVQ (Mw 2) AX; MULQ (L BX); ADDQ (L AX) R8; ADCQ (K 0) DX; ADDQ (L R13) R8; MOVQ (K 0) R13;
   ADCQ (L DX) R13; MOVQ (Mw 3) AX; MULQ (L BX); ADDQ (L AX) R9; ADCQ (K 0) DX;
   ADDQ (L R13) R9; MOVQ (K 0) R13; ADCQ (L DX) R13; MOVQ (Mw 4) AX; MULQ (L BX);
   ADDQ (L AX) R10; ADCQ (K 0) DX; ADDQ (L R13) R10; MOVQ (K 0) R13; ADCQ (L DX) R13;
   MOVQ (Mw 5) AX; MULQ (L BX); ADDQ (L AX) R11; ADCQ (L DX) SI; ADDQ (L R13) R11;
   ADCQ (L SI) R12; MOVQ (K 0) SI; ADCQ (K 0) SI; MOVQ (L R15) AX; MULQ Inp; MOVQ (L AX) BX;
   MOVQ (K 0) R13; MOVQ (Mw 0) AX; MULQ (L BX); ADCQ (L DX) R13; MOVQ (Mw 1) AX; MULQ (L BX);
   ADDQ (L AX) R8; ADCQ (K 0) DX; ADDQ (L R13) R8; MOVQ (K 0) R13; ADCQ (L DX) R13;
   MOVQ (Mw 2) AX; MULQ (L BX); ADDQ (L AX) R9; ADCQ (K 0) DX; ADDQ (L R13) R9; MOVQ (K 0) R13;
   ADCQ (L DX) R13; MOVQ (Mw 3) AX; MULQ (L BX); ADDQ (L AX) R10; ADCQ (K 0) DX;
   ADDQ (L R13) R10; MOVQ (K 0) R13; ADCQ (L DX) R13; MOVQ (Mw 4) AX; MULQ (L BX);
   ADDQ (L AX) R11; ADCQ (K 0) DX; ADDQ (L R13) R11; MOVQ (K 0) R13; ADCQ (L DX) R13;
   MOVQ (Mw 5) AX; MULQ (L BX); ADDQ (L AX) R12; ADCQ (L DX) SI; ADDQ (L R13) R12;
   MOVQ (L (St 0)) CX; MOVQ (L (St 1)) R14; ADCQ (L SI) CX; ADCQ (K 0) R14; MOVQ (L R8) AX;
   MULQ Inp; MOVQ (L AX) BX; MOVQ (K 0) R13; MOVQ (Mw 0) AX; MULQ (L BX); ADCQ (L DX) R13;
   MOVQ (Mw 1) AX; MULQ (L BX); ADDQ (L AX) R9; ADCQ (K 0) DX; ADDQ (L R13) R9; MOVQ (K 0) R13;
   ADCQ (L DX) R13; MOVQ (Mw 2) AX; MULQ (L BX); ADDQ (L AX) R10; ADCQ (K 0) DX;
   ADDQ (L R13) R10; MOVQ (K 0) R13; ADCQ (L DX) R13; MOVQ (Mw 3) AX; MULQ (L BX);
   ADDQ (L AX) R11; ADCQ (K 0) DX; ADDQ (L R13) R11; MOVQ (K 0) R13; ADCQ (L DX) R13;
   MOVQ (Mw 4) AX; MULQ (L BX); ADDQ (L AX) R12; ADCQ (K 0) DX; ADDQ (L R13) R12;
   ADCQ (L DX) CX; ADCQ (K 0) R14; MOVQ (Mw 5) AX; MULQ (L BX); ADDQ (L AX) CX;
   ADCQ (L DX) R14; MOVQ (L R9) AX; MOVQ (L R10) BX; MOVQ (L R11) DX; MOVQ (L R12) R8;
   MOVQ (L CX) R15; MOVQ (L R14) R13; SUBQ (Mw 0) AX; SBBQ (Mw 1) BX; SBBQ (Mw 2) DX;
   SBBQ (Mw 3) R8; SBBQ (Mw 4) R15; SBBQ (Mw 5) R13; CMOVQCC (L AX) R9; CMOVQCC (L BX) R10;
   CMOVQCC (L DX) R11; CMOVQCC (L R8) R12; CMOVQCC (L R15) CX; CMOVQCC (L R13) R14;
   MOVQ (L R9) (Out 0); MOVQ (L R10) (Out 1); MOVQ (L R11) (Out 2); MOVQ (L R12) (Out 3);
   MOVQ (L CX) (Out 4); MOVQ (L R14) (Out 5)].

(** arithmetic_x86.s:1368-2218 (mulAssignNoADX); declared frame: 16 bytes. *)
Definition asm_mulAssignNoADX_frame : Z := 16.
Definition asm_mulAssignNoADX : list xins :=
  [MOVQ (K 0) R9; MOVQ (K 0) R10; MOVQ (K 0) R11; MOVQ (K 0) R12; MOVQ (K 0) R13; MOVQ (K 0) BX;
   MOVQ (L (Br 0)) CX; MOVQ (L (Ar 0)) AX; MULQ (L CX); MOVQ (L AX) (St 0); MOVQ (L DX) R8;
   MOVQ (L (Ar 1)) AX; MULQ (L CX); ADDQ (L AX) R8; ADCQ (L DX) R9; MOVQ (L (Ar 2)) AX;
   MULQ (L CX); ADDQ (L AX) R9; ADCQ (L DX) R10; MOVQ (L (Ar 3)) AX; MULQ (L CX);
   ADDQ (L AX) R10; ADCQ (L DX) R11; MOVQ (L (Ar 4)) AX; MULQ (L CX); ADDQ (L AX) R11;
   ADCQ (L DX) R12; MOVQ (L (Ar 5)) AX; MULQ (L CX); ADDQ (L AX) R12; ADCQ (L DX) R13;
   MOVQ (L (Br 1)) CX; MOVQ (L (Ar 0)) AX; MULQ (L CX); ADDQ (L AX) R8; ADCQ (L DX) R9;
   ADCQ (K 0) R10; ADCQ (K 0) BX; MOVQ (L R8) (St 1); MOVQ (L (Ar 1)) AX; MULQ (L CX);
   ADDQ (L AX) R9; ADCQ (L DX) R10; ADCQ (L BX) R11; MOVQ (K 0) BX; ADCQ (K 0) BX;
   MOVQ (L R9) R8; MOVQ (L (Ar 2)) AX; MULQ (L CX); ADDQ (L AX) R10; ADCQ (L DX) R11;
   ADCQ (L BX) R12; MOVQ (K 0) BX; ADCQ (K 0) BX; MOVQ (L R10) R9; MOVQ (L (Ar 3)) AX;
   MULQ (L CX); ADDQ (L AX) R11; ADCQ (L DX) R12; ADCQ (L BX) R13; MOVQ (K 0) BX;
   ADCQ (K 0) BX; MOVQ (L R11) R10; MOVQ (L (Ar 4)) AX; MULQ (L CX); ADDQ (L AX) R12;
   ADCQ (L DX) R13; ADCQ (K 0) BX; MOVQ (L R12) R11; MOVQ (L (Ar 5)) AX; MULQ (L CX);
   ADDQ (L AX) R13; ADCQ (L DX) BX; MOVQ (L R13) R12; MOVQ (L BX) R13; MOVQ (L (Br 2)) CX;
   MOVQ (K 0) BX; MOVQ (L (Ar 0)) AX; MULQ (L CX); ADDQ (L AX) R8; ADCQ (L DX) R9;
   ADCQ (K 0) R10; ADCQ (K 0) BX; MOVQ (L R8) (St 2); MOVQ (L (Ar 1)) AX; MULQ (L CX);
   ADDQ (L AX) R9; ADCQ (L DX) R10; ADCQ (L BX) R11; MOVQ (K 0) BX; ADCQ (K 0) BX;
   MOVQ (L R9) R8; MOVQ (L (Ar 2)) AX; MULQ (L CX); ADDQ (L AX) R10; ADCQ (L DX) R11;
   ADCQ (L BX) R12; MOVQ (K 0) BX; ADCQ (K 0) BX; MOVQ (L R10) R9; MOVQ (L (Ar 3)) AX;
   MULQ (L CX); ADDQ (L AX) R11; ADCQ (L DX) R12; ADCQ (L BX) R13; MOVQ (K 0) BX;
   ADCQ (K 0) BX; MOVQ (L R11) R10; MOVQ (L (Ar 4)) AX; MULQ (L CX); ADDQ (L AX) R12;
   ADCQ (L DX) R13; ADCQ (K 0) BX; MOVQ (L R12) R11; MOVQ (L (Ar 5)) AX; MULQ (L CX);
   ADDQ (L AX) R13; ADCQ (L DX) BX; MOVQ (L R13) R12; MOVQ (L BX) R13; MOVQ (L (Br 3)) CX;
   MOVQ (K 0) BX; MOVQ (L (Ar 0)) AX; MULQ (L CX); ADDQ (L AX) R8; ADCQ (L DX) R9;
   ADCQ (K 0) R10; ADCQ (K 0) BX; MOVQ (L R8) R14; MOVQ (L (Ar 1)) AX; MULQ (L CX);
   ADDQ (L AX) R9; ADCQ (L DX) R10; ADCQ (L BX) R11; MOVQ (K 0) BX; ADCQ (K 0) BX;
   MOVQ (L R9) R8; MOVQ (L (Ar 2)) AX; MULQ (L CX); ADDQ (L AX) R10; ADCQ (L DX) R11;
   ADCQ (L BX) R12; MOVQ (K 0) BX; ADCQ (K 0) BX; MOVQ (L R10) R9; MOVQ (L (Ar 3)) AX;
   MULQ (L CX); ADDQ (L AX) R11; ADCQ (L DX) R12; ADCQ (L BX) R13; MOVQ (K 0) BX;
   ADCQ (K 0) BX; MOVQ (L R11) R10; MOVQ (L (Ar 4)) AX; MULQ (L CX); ADDQ (L AX) R12;
   ADCQ (L DX) R13; ADCQ (K 0) BX; MOVQ (L R12) R11; MOVQ (L (Ar 5)) AX; MULQ (L CX);
   ADDQ (L AX) R13; ADCQ (L DX) BX; MOVQ (L R13) R12; MOVQ (L BX) R13; MOVQ (L (Br 4)) CX;
   MOVQ (K 0) BX; MOVQ (L (Ar 0)) AX; MULQ (L CX); ADDQ (L AX) R8; ADCQ (L DX) R9;
   ADCQ (K 0) R10; ADCQ (K 0) BX; MOVQ (L R8) R15; MOVQ (L (Ar 1)) AX; MULQ (L CX);
   ADDQ (L AX) R9; ADCQ (L DX) R10; ADCQ (L BX) R11; MOVQ (K 0) BX; ADCQ (K 0) BX;
   MOVQ (L R9) R8; MOVQ (L (Ar 2)) AX; MULQ (L CX); ADDQ (L AX) R10; ADCQ (L DX) R11;
   ADCQ (L BX) R12; MOVQ (K 0) BX; ADCQ (K 0) BX; MOVQ (L R10) R9; MOVQ (L (Ar 3)) AX;
   MULQ (L CX); ADDQ (L AX) R11; ADCQ (L DX) R12; ADCQ (L BX) R13; MOVQ (K 0) BX;
   ADCQ (K 0) BX; MOVQ (L R11) R10; MOVQ (L (Ar 4)) AX; MULQ (L CX); ADDQ (L AX) R12;
   ADCQ (L DX) R13; ADCQ (K 0) BX; MOVQ (L R12) R11; MOVQ (L (Ar 5)) AX; MULQ (L CX);
   ADDQ (L AX) R13; ADCQ (L DX) BX; MOVQ (L R13) R12; MOVQ (L BX) R13; MOVQ (L (Br 5)) CX;
   MOVQ (K 0) BX; MOVQ (L (Ar 0)) AX; MULQ (L CX); ADDQ (L AX) R8; ADCQ (L DX) R9;
   ADCQ (K 0) R10; ADCQ (K 0) BX; MOVQ (L (Ar 1)) AX; MULQ (L CX); ADDQ (L AX) R9;
   ADCQ (L DX) R10; ADCQ (L BX) R11; MOVQ (K 0) BX; ADCQ (K 0) BX; MOVQ (L (Ar 2)) AX;
   MULQ (L CX); ADDQ (L AX) R10; ADCQ (L DX) R11; ADCQ (L BX) R12; MOVQ (K 0) BX;
   ADCQ (K 0) BX; MOVQ (L (Ar 3)) AX; MULQ (L CX); ADDQ (L AX) R11; ADCQ (L DX) R12;
   ADCQ (L BX) R13; MOVQ (K 0) BX; ADCQ (K 0) BX; MOVQ (L (Ar 4)) AX; MULQ (L CX);
   ADDQ (L AX) R12; ADCQ (L DX) R13; ADCQ (K 0) BX; MOVQ (L (Ar 5)) AX; MULQ (L CX);
   ADDQ (L AX) R13; ADCQ (L DX) BX; MOVQ (L (St 0)) SI; MOVQ (L (St 1)) DI; MOVQ (L (St 2)) CX;
   MOVQ (L R13) (St 0); MOVQ (L BX) (St 1); MOVQ (L SI) AX; MULQ Inp; MOVQ (L AX) BX;
   MOVQ (K 0) R13; MOVQ (Mw 0) AX; MULQ (L BX); ADCQ (L DX) R13; MOVQ (Mw 1) AX; MULQ (L BX);
   ADDQ (L AX) DI; ADCQ (K 0) DX; ADDQ (L R13) DI; MOVQ (K 0) R13; ADCQ (L DX) R13;
   MOVQ (Mw 2) AX; MULQ (L BX); ADDQ (L AX) CX; ADCQ (K 0) DX; ADDQ (L R13) CX; MOVQ (K 0) R13;
   ADCQ (L DX) R13; MOVQ (Mw 3) AX; MULQ (L BX); ADDQ (L AX) R14; ADCQ (K 0) DX;
   ADDQ (L R13) R14; MOVQ (K 0) R13; ADCQ (L DX) R13; MOVQ (Mw 4) AX; MULQ (L BX);
   ADDQ (L AX) R15; ADCQ (K 0) DX; ADDQ (L R13) R15; MOVQ (K 0) R13; ADCQ (L DX) R13;
   MOVQ (Mw 5) AX; MULQ (L BX); ADDQ (L AX) R8; ADCQ (K 0) DX; ADDQ (L R13) R8; ADCQ (L DX) R9;
   MOVQ (K 0) SI; ADCQ (K 0) SI; MOVQ (L DI) AX; MULQ Inp; MOVQ (L AX) BX; MOVQ (K 0) R13;
   MOVQ (Mw 0) AX; MULQ (L BX); ADCQ (L DX) R13; MOVQ (Mw 1) AX; MULQ (L BX); ADDQ (L AX) CX;
   ADCQ (K 0) DX; ADDQ (L R13) CX; MOVQ (K 0) R13; ADCQ (L DX) R13; MOVQ (Mw 2) AX;
   MULQ (L BX); ADDQ (L AX) R14; ADCQ (K 0) DX; ADDQ (L R13) R14; MOVQ (K 0) R13;
   ADCQ (L DX) R13; MOVQ (Mw 3) AX; MULQ (L BX); ADDQ (L AX) R15; ADCQ (K 0) DX;
   ADDQ (L R13) R15; MOVQ (K 0) R13; ADCQ (L DX) R13; MOVQ (Mw 4) AX; MULQ (L BX);
   ADDQ (L AX) R8; ADCQ (K 0) DX; ADDQ (L R13) R8; MOVQ (K 0) R13; ADCQ (L DX) R13;
   MOVQ (Mw 5) AX; MULQ (L BX); ADDQ (L AX) R9; ADCQ (L DX) SI; ADDQ (L R13) R9;
   ADCQ (L SI) R10; MOVQ (K 0) SI; ADCQ (K 0) SI; MOVQ (L CX) AX; MULQ Inp; MOVQ (L AX) BX;
   MOVQ (K 0) R13; MOVQ (Mw 0) AX; MULQ (L BX); ADCQ (L DX) R13; MOVQ (Mw 1) AX; MULQ (L BX);
   ADDQ (L AX) R14; ADCQ (K 0) DX; ADDQ (L R13) R14; MOVQ (K 0) R13; ADCQ (L DX) R13;
   MOVQ (Mw 2) AX; MULQ (L BX); ADDQ (L AX) R15; ADCQ (K 0) DX; ADDQ (L R13) R15;
   MOVQ (K 0) R13; ADCQ (L DX) R13; MOVQ (Mw 3) AX; MULQ (L BX); ADDQ (L AX) R8; ADCQ (K 0) DX;
   ADDQ (L R13) R8; MOVQ (K 0) R13; ADCQ (L DX) R13; MOVQ (Mw 4) AX; MULQ (L BX);
   ADDQ (L AX) R9; ADCQ (K 0) DX; ADDQ (L R13) R9; MOVQ (K 0) R13; ADCQ (L DX) R13;
   MOVQ (Mw 5) AX; MULQ (L BX); ADDQ (L AX) R10; ADCQ (L DX) SI; ADDQ (L R13) R10;
   ADCQ (L SI) R11; MOVQ (K 0) SI; ADCQ (K 0) SI; MOVQ (L R14) AX; MULQ Inp; MOVQ (L AX) BX;
   MOVQ (K 0) R13; MOVQ (Mw 0) AX; MULQ (L BX); ADCQ (L DX) R13; MOVQ (Mw 1) AX; MULQ (L BX);
   ADDQ (L AX) R15; ADCQ (K 0) DX; ADDQ (L R13) R15; MOVQ (K 0) R13; ADCQ (L DX) R13;
   MOVQ (Mw 2) AX; MULQ (L BX); ADDQ (L AX) R8; ADCQ (K 0) DX; ADDQ (L R13) R8; MOVQ (K 0) R13;
   ADCQ (L DX) R13; MOVQ (Mw 3) AX; MULQ (L BX); ADDQ (L AX) R9; ADCQ (K 0) DX;
   ADDQ (L R13) R9; MOVQ (K 0) R13; ADCQ (L DX) R13; MOVQ (Mw 4) AX; MULQ (L BX);
   ADDQ (L AX) R10; ADCQ (K 0) DX; ADDQ (L R13) R10; MOVQ (K 0) R13; ADCQ (L DX) R13;
   MOVQ (Mw 5) AX; MULQ (L BX); ADDQ (L AX) R11; ADCQ (L DX) SI; ADDQ (L R13) R11;
   ADCQ (L SI) R12; MOVQ (K 0) SI; ADCQ (K 0) SI; MOVQ (L R15) AX; MULQ Inp; MOVQ (L AX) BX;
   MOVQ (K 0) R13; MOVQ (Mw 0) AX; MULQ (L BX); ADCQ (L DX) R13; MOVQ (Mw 1) AX; MULQ (L BX);
   ADDQ (L AX) R8; ADCQ (K 0) DX; ADDQ (L R13) R8; MOVQ (K 0) R13; ADCQ (L DX) R13;
   MOVQ (Mw 2) AX; MULQ (L BX); ADDQ (L AX) R9; ADCQ (K 0) DX; ADDQ (L R13) R9; MOVQ (K 0) R13;
   ADCQ (L DX) R13; MOVQ (Mw 3) AX; MULQ (L BX); ADDQ (L AX) R10; ADCQ (K 0) DX;
   ADDQ (L R13) R10; MOVQ (K 0) R13; ADCQ (L DX) R13; MOVQ (Mw 4) AX; MULQ (L BX);
   ADDQ (L AX) R11; ADCQ (K 0) DX; ADDQ (L R13) R11; MOVQ (K 0) R13; ADCQ (L DX) R13;
   MOVQ (Mw 5) AX; MULQ (L BX); ADDQ (L AX) R12; ADCQ (L DX) SI; ADDQ (L R13) R12;
   MOVQ (L (St 0)) CX; MOVQ (L (St 1)) R14; ADCQ (L SI) CX; ADCQ (K 0) R14; MOVQ (L R8) AX;
   MULQ Inp; MOVQ (L AX) BX; MOVQ (K 0) R13; MOVQ (Mw 0) AX; MULQ (L BX); ADCQ (L DX) R13;
   MOVQ (Mw 1) AX; MULQ (L BX); ADDQ (L AX) R9; ADCQ (K 0) DX; ADDQ (L R13) R9; MOVQ (K 0) R13;
   ADCQ (L DX) R13; MOVQ (Mw 2) AX; MULQ (L BX); ADDQ (L AX) R10; ADCQ (K 0) DX;
   ADDQ (L R13) R10; MOVQ (K 0) R13; ADCQ (L DX) R13; MOVQ (Mw 3) AX; MULQ (L BX);
   ADDQ (L AX) R11; ADCQ (K 0) DX; ADDQ (L R13) R11; MOVQ (K 0) R13; ADCQ (L DX) R13;
   MOVQ (Mw 4) AX; MULQ (L BX); ADDQ (L AX) R12; ADCQ (K 0) DX; ADDQ (L R13) R12;
   ADCQ (L DX) CX; ADCQ (K 0) R14; MOVQ (Mw 5) AX; MULQ (L BX); ADDQ (L AX) CX;
   ADCQ (L DX) R14; MOVQ (L R9) AX; MOVQ (L R10) BX; MOVQ (L R11) DX; MOVQ (L R12) R8;
   MOVQ (L CX) R15; MOVQ (L R14) R13; SUBQ (Mw 0) AX; SBBQ (Mw 1) BX; SBBQ (Mw 2) DX;
   SBBQ (Mw 3) R8; SBBQ (Mw 4) R15; SBBQ (Mw 5) R13; CMOVQCC (L AX) R9; CMOVQCC (L BX) R10;
   CMOVQCC (L DX) R11; CMOVQCC (L R8) R12; CMOVQCC (L R15) CX; CMOVQCC (L R13) R14;
   MOVQ (L R9) (Out 0); MOVQ (L R10) (Out 1); MOVQ (L R11) (Out 2); MOVQ (L R12) (Out 3);
   MOVQ (L CX) (Out 4); MOVQ (L R14) (Out 5)].

(** arithmetic_x86.s:2223-2684 (mulADX); declared frame: 16 bytes. *)
Definition asm_mulADX_frame : Z := 16.
Definition asm_mulADX : list xins :=
  [MOVQ (L (Br 0)) DX; XORQ (L AX) AX; MULXQ (L (Ar 0)) AX R8; MOVQ (L AX) CX;
   MULXQ (L (Ar 1)) AX R9; ADCXQ (L AX) R8; MULXQ (L (Ar 2)) AX R10; ADCXQ (L AX) R9;
   MULXQ (L (Ar 3)) AX R11; ADCXQ (L AX) R10; MULXQ (L (Ar 4)) AX R12; ADCXQ (L AX) R11;
   MULXQ (L (Ar 5)) AX R13; ADCXQ (L AX) R12; ADCQ (K 0) R13; MOVQ (L (Br 1)) DX;
   XORQ (L R14) R14; MULXQ (L (Ar 0)) AX BX; ADOXQ (L AX) R8; ADCXQ (L BX) R9;
   MOVQ (L R8) (St 0); MULXQ (L (Ar 1)) AX BX; ADOXQ (L AX) R9; ADCXQ (L BX) R10;
   MULXQ (L (Ar 2)) AX BX; ADOXQ (L AX) R10; ADCXQ (L BX) R11; MULXQ (L (Ar 3)) AX BX;
   ADOXQ (L AX) R11; ADCXQ (L BX) R12; MULXQ (L (Ar 4)) AX BX; ADOXQ (L AX) R12;
   ADCXQ (L BX) R13; MULXQ (L (Ar 5)) AX BX; ADOXQ (L AX) R13; ADOXQ (L R14) R14;
   ADCXQ (L BX) R14; MOVQ (L (Br 2)) DX; XORQ (L R15) R15; MULXQ (L (Ar 0)) AX BX;
   ADOXQ (L AX) R9; ADCXQ (L BX) R10; MOVQ (L R9) (St 1); MULXQ (L (Ar 1)) AX BX;
   ADOXQ (L AX) R10; ADCXQ (L BX) R11; MULXQ (L (Ar 2)) AX BX; ADOXQ (L AX) R11;
   ADCXQ (L BX) R12; MULXQ (L (Ar 3)) AX BX; ADOXQ (L AX) R12; ADCXQ (L BX) R13;
   MULXQ (L (Ar 4)) AX BX; ADOXQ (L AX) R13; ADCXQ (L BX) R14; MULXQ (L (Ar 5)) AX BX;
   ADOXQ (L AX) R14; ADOXQ (L R15) R15; ADCXQ (L BX) R15; MOVQ (L (Br 3)) DX; XORQ (L R8) R8;
   MULXQ (L (Ar 0)) AX BX; ADOXQ (L AX) R10; ADCXQ (L BX) R11; MULXQ (L (Ar 1)) AX BX;
   ADOXQ (L AX) R11; ADCXQ (L BX) R12; MULXQ (L (Ar 2)) AX BX; ADOXQ (L AX) R12;
   ADCXQ (L BX) R13; MULXQ (L (Ar 3)) AX BX; ADOXQ (L AX) R13; ADCXQ (L BX) R14;
   MULXQ (L (Ar 4)) AX BX; ADOXQ (L AX) R14; ADCXQ (L BX) R15; MULXQ (L (Ar 5)) AX BX;
   ADOXQ (L AX) R15; ADOXQ (L R8) R8; ADCXQ (L BX) R8; MOVQ (L (Br 4)) DX; XORQ (L R9) R9;
   MULXQ (L (Ar 0)) AX BX; ADOXQ (L AX) R11; ADCXQ (L BX) R12; MULXQ (L (Ar 1)) AX BX;
   ADOXQ (L AX) R12; ADCXQ (L BX) R13; MULXQ (L (Ar 2)) AX BX; ADOXQ (L AX) R13;
   ADCXQ (L BX) R14; MULXQ (L (Ar 3)) AX BX; ADOXQ (L AX) R14; ADCXQ (L BX) R15;
   MULXQ (L (Ar 4)) AX BX; ADOXQ (L AX) R15; ADCXQ (L BX) R8; MULXQ (L (Ar 5)) AX BX;
   ADOXQ (L AX) R8; ADOXQ (L R9) R9; ADCXQ (L BX) R9; MOVQ (L (Br 5)) DX; XORQ (L SI) SI;
   MULXQ (L (Ar 0)) AX BX; ADOXQ (L AX) R12; ADCXQ (L BX) R13; MULXQ (L (Ar 1)) AX BX;
   ADOXQ (L AX) R13; ADCXQ (L BX) R14; MULXQ (L (Ar 2)) AX BX; ADOXQ (L AX) R14;
   ADCXQ (L BX) R15; MULXQ (L (Ar 3)) AX BX; ADOXQ (L AX) R15; ADCXQ (L BX) R8;
   MULXQ (L (Ar 4)) AX BX; ADOXQ (L AX) R8; ADCXQ (L BX) R9; MULXQ (L (Ar 5)) AX BX;
   ADOXQ (L AX) R9; ADOXQ (L BX) SI; MOVQ (L (St 0)) DI; MOVQ (L (St 1)) BX;
   MOVQ (L R9) (St 0); MOVQ (L SI) (St 1); MOVQ Inp DX; MULXQ (L CX) DX R9; XORQ (L SI) SI;
   MULXQ (Mw 0) AX R9; ADOXQ (L AX) CX; ADCXQ (L R9) DI; MULXQ (Mw 1) AX R9; ADOXQ (L AX) DI;
   ADCXQ (L R9) BX; MULXQ (Mw 2) AX R9; ADOXQ (L AX) BX; ADCXQ (L R9) R10; MULXQ (Mw 3) AX R9;
   ADOXQ (L AX) R10; ADCXQ (L R9) R11; MULXQ (Mw 4) AX R9; ADOXQ (L AX) R11; ADCXQ (L R9) R12;
   MULXQ (Mw 5) AX R9; ADOXQ (L AX) R12; ADCXQ (L R9) R13; ADOXQ (L SI) R13; ADCXQ (L SI) SI;
   XORQ (L CX) CX; MOVQ (L DI) DX; MULXQ Inp DX R9; MULXQ (Mw 0) AX R9; ADOXQ (L AX) DI;
   ADCXQ (L R9) BX; MULXQ (Mw 1) AX R9; ADOXQ (L AX) BX; ADCXQ (L R9) R10; MULXQ (Mw 2) AX R9;
   ADOXQ (L AX) R10; ADCXQ (L R9) R11; MULXQ (Mw 3) AX R9; ADOXQ (L AX) R11; ADCXQ (L R9) R12;
   MULXQ (Mw 4) AX R9; ADOXQ (L AX) R12; ADCXQ (L R9) R13; MULXQ (Mw 5) AX R9;
   ADOXQ (L AX) R13; ADCXQ (L R9) R14; ADOXQ (L SI) R14; ADCXQ (L CX) CX; XORQ (L DI) DI;
   MOVQ (L BX) DX; MULXQ Inp DX R9; MULXQ (Mw 0) AX R9; ADOXQ (L AX) BX; ADCXQ (L R9) R10;
   MULXQ (Mw 1) AX R9; ADOXQ (L AX) R10; ADCXQ (L R9) R11; MULXQ (Mw 2) AX R9;
   ADOXQ (L AX) R11; ADCXQ (L R9) R12; MULXQ (Mw 3) AX R9; ADOXQ (L AX) R12; ADCXQ (L R9) R13;
   MULXQ (Mw 4) AX R9; ADOXQ (L AX) R13; ADCXQ (L R9) R14; MULXQ (Mw 5) AX R9;
   ADOXQ (L AX) R14; ADCXQ (L R9) R15; ADOXQ (L CX) R15; ADCXQ (L DI) DI; XORQ (L CX) CX;
   MOVQ (L R10) DX; MULXQ Inp DX BX; MULXQ (Mw 0) AX BX; ADOXQ (L AX) R10; ADCXQ (L BX) R11;
   MULXQ (Mw 1) AX BX; ADOXQ (L AX) R11; ADCXQ (L BX) R12; MULXQ (Mw 2) AX BX;
   ADOXQ (L AX) R12; ADCXQ (L BX) R13; MULXQ (Mw 3) AX BX; ADOXQ (L AX) R13; ADCXQ (L BX) R14;
   MULXQ (Mw 4) AX BX; ADOXQ (L AX) R14; ADCXQ (L BX) R15; MULXQ (Mw 5) AX BX;
   ADOXQ (L AX) R15; ADCXQ (L BX) R8; ADOXQ (L DI) R8; ADCXQ (L CX) CX; MOVQ (L (St 0)) R9;
   XORQ (L DI) DI; MOVQ (L R11) DX; MULXQ Inp DX BX; MULXQ (Mw 0) AX BX; ADOXQ (L AX) R11;
   ADCXQ (L BX) R12; MULXQ (Mw 1) AX BX; ADOXQ (L AX) R12; ADCXQ (L BX) R13;
   MULXQ (Mw 2) AX BX; ADOXQ (L AX) R13; ADCXQ (L BX) R14; MULXQ (Mw 3) AX BX;
   ADOXQ (L AX) R14; ADCXQ (L BX) R15; MULXQ (Mw 4) AX BX; ADOXQ (L AX) R15; ADCXQ (L BX) R8;
   MULXQ (Mw 5) AX BX; ADOXQ (L AX) R8; ADCXQ (L BX) R9; ADOXQ (L CX) R9; ADCXQ (L DI) DI;
   MOVQ (L (St 1)) R10; XORQ (L AX) AX; MOVQ (L R12) DX; MULXQ Inp DX BX; MULXQ (Mw 0) AX BX;
   ADOXQ (L AX) R12; ADCXQ (L BX) R13; MULXQ (Mw 1) AX BX; ADOXQ (L AX) R13; ADCXQ (L BX) R14;
   MULXQ (Mw 2) AX BX; ADOXQ (L AX) R14; ADCXQ (L BX) R15; MULXQ (Mw 3) AX BX;
   ADOXQ (L AX) R15; ADCXQ (L BX) R8; MULXQ (Mw 4) AX BX; ADOXQ (L AX) R8; ADCXQ (L BX) R9;
   MULXQ (Mw 5) AX BX; ADOXQ (L AX) R9; ADCXQ (L BX) R10; ADOXQ (L DI) R10; MOVQ (L R13) AX;
   MOVQ (L R14) BX; MOVQ (L R15) CX; MOVQ (L R8) DX; MOVQ (L R9) R11; MOVQ (L R10) R12;
   SUBQ (Mw 0) AX; SBBQ (Mw 1) BX; SBBQ (Mw 2) CX; SBBQ (Mw 3) DX; SBBQ (Mw 4) R11;
   SBBQ (Mw 5) R12; CMOVQCC (L AX) R13; CMOVQCC (L BX) R14; CMOVQCC (L CX) R15;
   CMOVQCC (L DX) R8; CMOVQCC (L R11) R9; CMOVQCC (L R12) R10; MOVQ (L R13) (Out 0);
   MOVQ (L R14) (Out 1); MOVQ (L R15) (Out 2); MOVQ (L R8) (Out 3); MOVQ (L R9) (Out 4);
   MOVQ (L R10) (Out 5)].

(** arithmetic_x86.s:2689-3150 (mulAssignADX); declared frame: 16 bytes. *)
Definition asm_mulAssignADX_frame : Z := 16.
Definition asm_mulAssignADX : list xins :=
  [MOVQ (L (Br 0)) DX; XORQ (L AX) AX; MULXQ (L (Ar 0)) AX R8; MOVQ (L AX) CX;
   MULXQ (L (Ar 1)) AX R9; ADCXQ (L AX) R8; MULXQ (L (Ar 2)) AX R10; ADCXQ (L AX) R9;
   MULXQ (L (Ar 3)) AX R11; ADCXQ (L AX) R10; MULXQ (L (Ar 4)) AX R12; ADCXQ (L AX) R11;
   MULXQ (L (Ar 5)) AX R13; ADCXQ (L AX) R12; ADCQ (K 0) R13; MOVQ (L (Br 1)) DX;
   XORQ (L R14) R14; MULXQ (L (Ar 0)) AX BX; ADOXQ (L AX) R8; ADCXQ (L BX) R9;
   MOVQ (L R8) (St 0); MULXQ (L (Ar 1)) AX BX; ADOXQ (L AX) R9; ADCXQ (L BX) R10;
   MULXQ (L (Ar 2)) AX BX; ADOXQ (L AX) R10; ADCXQ (L BX) R11; MULXQ (L (Ar 3)) AX BX;
   ADOXQ (L AX) R11; ADCXQ (L BX) R12; MULXQ (L (Ar 4)) AX BX; ADOXQ (L AX) R12;
   ADCXQ (L BX) R13; MULXQ (L (Ar 5)) AX BX; ADOXQ (L AX) R13; ADOXQ (L R14) R14;
   ADCXQ (L BX) R14; MOVQ (L (Br 2)) DX; XORQ (L R15) R15; MULXQ (L (Ar 0)) AX BX;
   ADOXQ (L AX) R9; ADCXQ (L BX) R10; MOVQ (L R9) (St 1); MULXQ (L (Ar 1)) AX BX;
   ADOXQ (L AX) R10; ADCXQ (L BX) R11; MULXQ (L (Ar 2)) AX BX; ADOXQ (L AX) R11;
   ADCXQ (L BX) R12; MULXQ (L (Ar 3)) AX BX; ADOXQ (L AX) R12; ADCXQ (L BX) R13;
   MULXQ (L (Ar 4)) AX BX; ADOXQ (L AX) R13; ADCXQ (L BX) R14; MULXQ (L (Ar 5)) AX BX;
   ADOXQ (L AX) R14; ADOXQ (L R15) R15; ADCXQ (L BX) R15; MOVQ (L (Br 3)) DX; XORQ (L R8) R8;
   MULXQ (L (Ar 0)) AX BX; ADOXQ (L AX) R10; ADCXQ (L BX) R11; MULXQ (L (Ar 1)) AX BX;
   ADOXQ (L AX) R11; ADCXQ (L BX) R12; MULXQ (L (Ar 2)) AX BX; ADOXQ (L AX) R12;
   ADCXQ (L BX) R13; MULXQ (L (Ar 3)) AX BX; ADOXQ (L AX) R13; ADCXQ (L BX) R14;
   MULXQ (L (Ar 4)) AX BX; ADOXQ (L AX) R14; ADCXQ (L BX) R15; MULXQ (L (Ar 5)) AX BX;
   ADOXQ (L AX) R15; ADOXQ (L R8) R8; ADCXQ (L BX) R8; MOVQ (L (Br 4)) DX; XORQ (L R9) R9;
   MULXQ (L (Ar 0)) AX BX; ADOXQ (L AX) R11; ADCXQ (L BX) R12; MULXQ (L (Ar 1)) AX BX;
   ADOXQ (L AX) R12; ADCXQ (L BX) R13; MULXQ (L (Ar 2)) AX BX; ADOXQ (L AX) R13;
   ADCXQ (L BX) R14; MULXQ (L (Ar 3)) AX BX; ADOXQ (L AX) R14; ADCXQ (L BX) R15;
   MULXQ (L (Ar 4)) AX BX; ADOXQ (L AX) R15; ADCXQ (L BX) R8; MULXQ (L (Ar 5)) AX BX;
   ADOXQ (L AX) R8; ADOXQ (L R9) R9; ADCXQ (L BX) R9; MOVQ (L (Br 5)) DX; XORQ (L SI) SI;
   MULXQ (L (Ar 0)) AX BX; ADOXQ (L AX) R12; ADCXQ (L BX) R13; MULXQ (L (Ar 1)) AX BX;
   ADOXQ (L AX) R13; ADCXQ (L BX) R14; MULXQ (L (Ar 2)) AX BX; ADOXQ (L AX) R14;
   ADCXQ (L BX) R15; MULXQ (L (Ar 3)) AX BX; ADOXQ (L AX) R15; ADCXQ (L BX) R8;
   MULXQ (L (Ar 4)) AX BX; ADOXQ (L AX) R8; ADCXQ (L BX) R9; MULXQ (L (Ar 5)) AX BX;
   ADOXQ (L AX) R9; ADOXQ (L BX) SI; MOVQ (L (St 0)) DI; MOVQ (L (St 1)) BX;
   MOVQ (L R9) (St 0); MOVQ (L SI) (St 1); MOVQ Inp DX; MULXQ (L CX) DX R9; XORQ (L SI) SI;
   MULXQ (Mw 0) AX R9; ADOXQ (L AX) CX; ADCXQ (L R9) DI; MULXQ (Mw 1) AX R9; ADOXQ (L AX) DI;
   ADCXQ (L R9) BX; MULXQ (Mw 2) AX R9; ADOXQ (L AX) BX; ADCXQ (L R9) R10; MULXQ (Mw 3) AX R9;
   ADOXQ (L AX) R10; ADCXQ (L R9) R11; MULXQ (Mw 4) AX R9; ADOXQ (L AX) R11; ADCXQ (L R9) R12;
   MULXQ (Mw 5) AX R9; ADOXQ (L AX) R12; ADCXQ (L R9) R13; ADOXQ (L SI) R13; ADCXQ (L SI) SI;
   XORQ (L CX) CX; MOVQ (L DI) DX; MULXQ Inp DX R9; MULXQ (Mw 0) AX R9; ADOXQ (L AX) DI;
   ADCXQ (L R9) BX; MULXQ (Mw 1) AX R9; ADOXQ (L AX) BX; ADCXQ (L R9) R10; MULXQ (Mw 2) AX R9;
   ADOXQ (L AX) R10; ADCXQ (L R9) R11; MULXQ (Mw 3) AX R9; ADOXQ (L AX) R11; ADCXQ (L R9) R12;
   MULXQ (Mw 4) AX R9; ADOXQ (L AX) R12; ADCXQ (L R9) R13; MULXQ (Mw 5) AX R9;
   ADOXQ (L AX) R13; ADCXQ (L R9) R14; ADOXQ (L SI) R14; ADCXQ (L CX) CX; XORQ (L DI) DI;
   MOVQ (L BX) DX; MULXQ Inp DX R9; MULXQ (Mw 0) AX R9; ADOXQ (L AX) BX; ADCXQ (L R9) R10;
   MULXQ (Mw 1) AX R9; ADOXQ (L AX) R10; ADCXQ (L R9) R11; MULXQ (Mw 2) AX R9;
   ADOXQ (L AX) R11; ADCXQ (L R9) R12; MULXQ (Mw 3) AX R9; ADOXQ (L AX) R12; ADCXQ (L R9) R13;
   MULXQ (Mw 4) AX R9; ADOXQ (L AX) R13; ADCXQ (L R9) R14; MULXQ (Mw 5) AX R9;
   ADOXQ (L AX) R14; ADCXQ (L R9) R15; ADOXQ (L CX) R15; ADCXQ (L DI) DI; XORQ (L CX) CX;
   MOVQ (L R10) DX; MULXQ Inp DX BX; MULXQ (Mw 0) AX BX; ADOXQ (L AX) R10; ADCXQ (L BX) R11;
   MULXQ (Mw 1) AX BX; ADOXQ (L AX) R11; ADCXQ (L BX) R12; MULXQ (Mw 2) AX BX;
   ADOXQ (L AX) R12; ADCXQ (L BX) R13; MULXQ (Mw 3) AX BX; ADOXQ (L AX) R13; ADCXQ (L BX) R14;
   MULXQ (Mw 4) AX BX; ADOXQ (L AX) R14; ADCXQ (L BX) R15; MULXQ (Mw 5) AX BX;
   ADOXQ (L AX) R15; ADCXQ (L BX) R8; ADOXQ (L DI) R8; ADCXQ (L CX) CX; MOVQ (L (St 0)) R9;
   XORQ (L DI) DI; MOVQ (L R11) DX; MULXQ Inp DX BX; MULXQ (Mw 0) AX BX; ADOXQ (L AX) R11;
   ADCXQ (L BX) R12; MULXQ (Mw 1) AX BX; ADOXQ (L AX) R12; ADCXQ (L BX) R13;
   MULXQ (Mw 2) AX BX; ADOXQ (L AX) R13; ADCXQ (L BX) R14; MULXQ (Mw 3) AX BX;
   ADOXQ (L AX) R14; ADCXQ (L BX) R15; MULXQ (Mw 4) AX BX; ADOXQ (L AX) R15; ADCXQ (L BX) R8;
   MULXQ (Mw 5) AX BX; ADOXQ (L AX) R8; ADCXQ (L BX) R9; ADOXQ (L CX) R9; ADCXQ (L DI) DI;
   MOVQ (L (St 1)) R10; XORQ (L AX) AX; MOVQ (L R12) DX; MULXQ Inp DX BX; MULXQ (Mw 0) AX BX;
   ADOXQ (L AX) R12; ADCXQ (L BX) R13; MULXQ (Mw 1) AX BX; ADOXQ (L AX) R13; ADCXQ (L BX) R14;
   MULXQ (Mw 2) AX BX; ADOXQ (L AX) R14; ADCXQ (L BX) R15; MULXQ (Mw 3) AX BX;
   ADOXQ (L AX) R15; ADCXQ (L BX) R8; MULXQ (Mw 4) AX BX; ADOXQ (L AX) R8; ADCXQ (L BX) R9;
   MULXQ (Mw 5) AX BX; ADOXQ (L AX) R9; ADCXQ (L BX) R10; ADOXQ (L DI) R10; MOVQ (L R13) AX;
   MOVQ (L R14) BX; MOVQ (L R15) CX; MOVQ (L R8) DX; MOVQ (L R9) R11; MOVQ (L R10) R12;
   SUBQ (Mw 0) AX; SBBQ (Mw 1) BX; SBBQ (Mw 2) CX; SBBQ (Mw 3) DX; SBBQ (Mw 4) R11;
   SBBQ (Mw 5) R12; CMOVQCC (L AX) R13; CMOVQCC (L BX) R14; CMOVQCC (L CX) R15;
   CMOVQCC (L DX) R8; CMOVQCC (L R11) R9; CMOVQCC (L R12) R10; MOVQ (L R13) (Out 0);
   MOVQ (L R14) (Out 1); MOVQ (L R15) (Out 2); MOVQ (L R8) (Out 3); MOVQ (L R9) (Out 4);
   MOVQ (L R10) (Out 5)].
