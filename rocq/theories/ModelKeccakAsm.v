(** GENERATED by tools/mkkeccak.py from sha3/keccakf_amd64.s.  Do not edit.
    One entry per instruction, in order.  The load of the argument pointer
    (MOVQ state+0(FP), DI) is resolved by the generator: St n is n*8(DI), word n of
    the caller's state, and Sk n is n*8(SP), word n of the stack frame.  No proofs in
    this file. *)
From Coq Require Import ZArith List.
Import ListNotations.
Open Scope Z_scope.

(** The registers of the routine, the state and the frame *)
Inductive kloc :=
| AX | BX | CX | DX | SI | BP | R8 | R9 | R10 | R11 | R12 | R13 | R14 | R15
| St (n : nat) | Sk (n : nat).
Inductive ksrc := W (l : kloc) | K (z : Z).
(** the operand order is that of the Go assembler: the destination comes last *)
Inductive kins :=
| MOVQ (s : ksrc) (d : kloc) | XORQ (s : ksrc) (d : kloc) | ANDQ (s : ksrc) (d : kloc) | ORQ (s : ksrc) (d : kloc)
| ROLQ (k : nat) (d : kloc) | NOTQ (d : kloc).

(** keccakf_amd64.s:71-320; the last thirteen arguments are instructions or
    nothing (NOP) *)
Definition mKeccakRound (iState oState : nat -> kloc) (rc : Z)
  (B_RBI_RCE G_RT1_RCA G_RT1_RCE G_RBA_RCU K_RT1_RCA K_RT1_RCE K_RBA_RCU M_RT1_RCA M_RT1_RCE M_RBE_RCU S_RDU_RCU S_RDA_RCA S_RDE_RCE : list kins) : list kins :=
  [MOVQ (W BP) BX; ROLQ 1 BX; MOVQ (W (iState 2%nat)) R12; XORQ (W (iState 7%nat)) DX; XORQ (W R15) BX;
   XORQ (W (iState 12%nat)) R12; XORQ (W (iState 17%nat)) DX; XORQ (W DX) R12; MOVQ (W R12) CX; ROLQ 1 CX;
   MOVQ (W (iState 3%nat)) R13; XORQ (W (iState 8%nat)) R8; XORQ (W SI) CX; XORQ (W (iState 13%nat)) R13;
   XORQ (W (iState 18%nat)) R8; XORQ (W R8) R13; MOVQ (W R13) DX; ROLQ 1 DX; MOVQ (W R15) R8; XORQ (W BP) DX;
   ROLQ 1 R8; MOVQ (W SI) R9; XORQ (W R12) R8; ROLQ 1 R9; MOVQ (W (iState 0%nat)) R10;
   MOVQ (W (iState 6%nat)) R11; XORQ (W R13) R9; MOVQ (W (iState 12%nat)) R12; MOVQ (W (iState 18%nat)) R13;
   MOVQ (W (iState 24%nat)) R14; XORQ (W CX) R11; ROLQ 44 R11; XORQ (W DX) R12; XORQ (W BX) R10; ROLQ 43 R12;
   MOVQ (W R11) SI; MOVQ (K rc) AX; ORQ (W R12) SI; XORQ (W R10) AX; XORQ (W AX) SI;
   MOVQ (W SI) (oState 0%nat); XORQ (W R9) R14; ROLQ 14 R14; MOVQ (W R10) R15; ANDQ (W R11) R15;
   XORQ (W R14) R15; MOVQ (W R15) (oState 4%nat); XORQ (W R8) R13; ROLQ 21 R13; MOVQ (W R13) AX;
   ANDQ (W R14) AX; XORQ (W R12) AX; MOVQ (W AX) (oState 2%nat); NOTQ R12; ORQ (W R10) R14; ORQ (W R13) R12;
   XORQ (W R13) R14; XORQ (W R11) R12; MOVQ (W R14) (oState 3%nat); MOVQ (W R12) (oState 1%nat)] ++
  B_RBI_RCE ++
  [MOVQ (W (iState 9%nat)) R11; XORQ (W R9) R11; MOVQ (W (iState 10%nat)) R12; ROLQ 20 R11; XORQ (W BX) R12;
   ROLQ 3 R12; MOVQ (W (iState 3%nat)) R10; MOVQ (W R11) AX; ORQ (W R12) AX; XORQ (W R8) R10;
   MOVQ (W (iState 16%nat)) R13; MOVQ (W (iState 22%nat)) R14; ROLQ 28 R10; XORQ (W R10) AX;
   MOVQ (W AX) (oState 5%nat)] ++
  G_RT1_RCA ++
  [XORQ (W CX) R13; ROLQ 45 R13; MOVQ (W R12) AX; ANDQ (W R13) AX; XORQ (W R11) AX; MOVQ (W AX) (oState 6%nat)] ++
  G_RT1_RCE ++
  [XORQ (W DX) R14; ROLQ 61 R14; MOVQ (W R14) AX; ORQ (W R10) AX; XORQ (W R13) AX; MOVQ (W AX) (oState 8%nat);
   ANDQ (W R11) R10; XORQ (W R14) R10; MOVQ (W R10) (oState 9%nat); NOTQ R14] ++
  G_RBA_RCU ++
  [ORQ (W R14) R13; XORQ (W R12) R13; MOVQ (W R13) (oState 7%nat); MOVQ (W (iState 1%nat)) R10;
   MOVQ (W (iState 7%nat)) R11; MOVQ (W (iState 13%nat)) R12; MOVQ (W (iState 19%nat)) R13;
   MOVQ (W (iState 20%nat)) R14; XORQ (W DX) R11; ROLQ 6 R11; XORQ (W R8) R12; ROLQ 25 R12; MOVQ (W R11) AX;
   ORQ (W R12) AX; XORQ (W CX) R10; ROLQ 1 R10; XORQ (W R10) AX; MOVQ (W AX) (oState 10%nat)] ++
  K_RT1_RCA ++
  [XORQ (W R9) R13; ROLQ 8 R13; MOVQ (W R12) AX; ANDQ (W R13) AX; XORQ (W R11) AX; MOVQ (W AX) (oState 11%nat)] ++
  K_RT1_RCE ++
  [XORQ (W BX) R14; ROLQ 18 R14; NOTQ R13; MOVQ (W R13) AX; ANDQ (W R14) AX; XORQ (W R12) AX;
   MOVQ (W AX) (oState 12%nat); MOVQ (W R14) AX; ORQ (W R10) AX; XORQ (W R13) AX; MOVQ (W AX) (oState 13%nat);
   ANDQ (W R11) R10; XORQ (W R14) R10; MOVQ (W R10) (oState 14%nat)] ++
  K_RBA_RCU ++
  [MOVQ (W (iState 5%nat)) R11; XORQ (W BX) R11; MOVQ (W (iState 11%nat)) R12; ROLQ 36 R11; XORQ (W CX) R12;
   MOVQ (W (iState 4%nat)) R10; ROLQ 10 R12; MOVQ (W R11) AX; MOVQ (W (iState 17%nat)) R13; ANDQ (W R12) AX;
   XORQ (W R9) R10; MOVQ (W (iState 23%nat)) R14; ROLQ 27 R10; XORQ (W R10) AX; MOVQ (W AX) (oState 15%nat)] ++
  M_RT1_RCA ++
  [XORQ (W DX) R13; ROLQ 15 R13; MOVQ (W R12) AX; ORQ (W R13) AX; XORQ (W R11) AX; MOVQ (W AX) (oState 16%nat)] ++
  M_RT1_RCE ++
  [XORQ (W R8) R14; ROLQ 56 R14; NOTQ R13; MOVQ (W R13) AX; ORQ (W R14) AX; XORQ (W R12) AX;
   MOVQ (W AX) (oState 17%nat); ORQ (W R10) R11; XORQ (W R14) R11; MOVQ (W R11) (oState 19%nat);
   ANDQ (W R10) R14; XORQ (W R13) R14; MOVQ (W R14) (oState 18%nat)] ++
  M_RBE_RCU ++
  [MOVQ (W (iState 2%nat)) R10; MOVQ (W (iState 8%nat)) R11; MOVQ (W (iState 14%nat)) R12; XORQ (W DX) R10;
   MOVQ (W (iState 15%nat)) R13; ROLQ 62 R10; XORQ (W R8) R11; MOVQ (W (iState 21%nat)) R14; ROLQ 55 R11;
   XORQ (W R9) R12; MOVQ (W R10) R9; XORQ (W CX) R14; ROLQ 2 R14; ANDQ (W R11) R9; XORQ (W R14) R9;
   MOVQ (W R9) (oState 24%nat); ROLQ 39 R12] ++
  S_RDU_RCU ++
  [NOTQ R11; XORQ (W BX) R13; MOVQ (W R11) BX; ANDQ (W R12) BX; XORQ (W R10) BX; MOVQ (W BX) (oState 20%nat)] ++
  S_RDA_RCA ++
  [ROLQ 41 R13; MOVQ (W R12) CX; ORQ (W R13) CX; XORQ (W R11) CX; MOVQ (W CX) (oState 21%nat)] ++
  S_RDE_RCE ++
  [MOVQ (W R13) DX; MOVQ (W R14) R8; ANDQ (W R14) DX; ORQ (W R10) R8; XORQ (W R12) DX; XORQ (W R13) R8;
   MOVQ (W DX) (oState 22%nat); MOVQ (W R8) (oState 23%nat)].
(** keccakf_amd64.s:323, the frame declared: $200-8 *)
Definition keccak_frame : Z := 200.
(** keccakf_amd64.s, before the rounds *)
Definition keccak_enter : list kins :=
  [NOTQ (St 1); NOTQ (St 2); NOTQ (St 8); NOTQ (St 12); NOTQ (St 17); NOTQ (St 20); MOVQ (W (St 0)) SI;
   MOVQ (W (St 1)) BP; MOVQ (W (St 4)) R15; XORQ (W (St 5)) SI; XORQ (W (St 6)) BP; XORQ (W (St 9)) R15;
   XORQ (W (St 10)) SI; XORQ (W (St 11)) BP; XORQ (W (St 14)) R15; XORQ (W (St 15)) SI; XORQ (W (St 16)) BP;
   XORQ (W (St 19)) R15; XORQ (W (St 20)) SI; XORQ (W (St 21)) BP; MOVQ (W (St 22)) DX; MOVQ (W (St 23)) R8;
   XORQ (W (St 24)) R15].
(** keccakf_amd64.s:357-380 *)
Definition keccak_rounds : list (list kins) :=
  [mKeccakRound St Sk 1 [MOVQ (W R12) BP] [XORQ (W AX) SI] [XORQ (W AX) BP] [XORQ (W R10) R15] [XORQ (W AX) SI] [XORQ (W AX) BP] [XORQ (W R10) R15] [XORQ (W AX) SI] [XORQ (W AX) BP] [XORQ (W R11) R15] [XORQ (W R9) R15] [XORQ (W BX) SI] [XORQ (W CX) BP];
   mKeccakRound Sk St 32898 [MOVQ (W R12) BP] [XORQ (W AX) SI] [XORQ (W AX) BP] [XORQ (W R10) R15] [XORQ (W AX) SI] [XORQ (W AX) BP] [XORQ (W R10) R15] [XORQ (W AX) SI] [XORQ (W AX) BP] [XORQ (W R11) R15] [XORQ (W R9) R15] [XORQ (W BX) SI] [XORQ (W CX) BP];
   mKeccakRound St Sk 9223372036854808714 [MOVQ (W R12) BP] [XORQ (W AX) SI] [XORQ (W AX) BP] [XORQ (W R10) R15] [XORQ (W AX) SI] [XORQ (W AX) BP] [XORQ (W R10) R15] [XORQ (W AX) SI] [XORQ (W AX) BP] [XORQ (W R11) R15] [XORQ (W R9) R15] [XORQ (W BX) SI] [XORQ (W CX) BP];
   mKeccakRound Sk St 9223372039002292224 [MOVQ (W R12) BP] [XORQ (W AX) SI] [XORQ (W AX) BP] [XORQ (W R10) R15] [XORQ (W AX) SI] [XORQ (W AX) BP] [XORQ (W R10) R15] [XORQ (W AX) SI] [XORQ (W AX) BP] [XORQ (W R11) R15] [XORQ (W R9) R15] [XORQ (W BX) SI] [XORQ (W CX) BP];
   mKeccakRound St Sk 32907 [MOVQ (W R12) BP] [XORQ (W AX) SI] [XORQ (W AX) BP] [XORQ (W R10) R15] [XORQ (W AX) SI] [XORQ (W AX) BP] [XORQ (W R10) R15] [XORQ (W AX) SI] [XORQ (W AX) BP] [XORQ (W R11) R15] [XORQ (W R9) R15] [XORQ (W BX) SI] [XORQ (W CX) BP];
   mKeccakRound Sk St 2147483649 [MOVQ (W R12) BP] [XORQ (W AX) SI] [XORQ (W AX) BP] [XORQ (W R10) R15] [XORQ (W AX) SI] [XORQ (W AX) BP] [XORQ (W R10) R15] [XORQ (W AX) SI] [XORQ (W AX) BP] [XORQ (W R11) R15] [XORQ (W R9) R15] [XORQ (W BX) SI] [XORQ (W CX) BP];
   mKeccakRound St Sk 9223372039002292353 [MOVQ (W R12) BP] [XORQ (W AX) SI] [XORQ (W AX) BP] [XORQ (W R10) R15] [XORQ (W AX) SI] [XORQ (W AX) BP] [XORQ (W R10) R15] [XORQ (W AX) SI] [XORQ (W AX) BP] [XORQ (W R11) R15] [XORQ (W R9) R15] [XORQ (W BX) SI] [XORQ (W CX) BP];
   mKeccakRound Sk St 9223372036854808585 [MOVQ (W R12) BP] [XORQ (W AX) SI] [XORQ (W AX) BP] [XORQ (W R10) R15] [XORQ (W AX) SI] [XORQ (W AX) BP] [XORQ (W R10) R15] [XORQ (W AX) SI] [XORQ (W AX) BP] [XORQ (W R11) R15] [XORQ (W R9) R15] [XORQ (W BX) SI] [XORQ (W CX) BP];
   mKeccakRound St Sk 138 [MOVQ (W R12) BP] [XORQ (W AX) SI] [XORQ (W AX) BP] [XORQ (W R10) R15] [XORQ (W AX) SI] [XORQ (W AX) BP] [XORQ (W R10) R15] [XORQ (W AX) SI] [XORQ (W AX) BP] [XORQ (W R11) R15] [XORQ (W R9) R15] [XORQ (W BX) SI] [XORQ (W CX) BP];
   mKeccakRound Sk St 136 [MOVQ (W R12) BP] [XORQ (W AX) SI] [XORQ (W AX) BP] [XORQ (W R10) R15] [XORQ (W AX) SI] [XORQ (W AX) BP] [XORQ (W R10) R15] [XORQ (W AX) SI] [XORQ (W AX) BP] [XORQ (W R11) R15] [XORQ (W R9) R15] [XORQ (W BX) SI] [XORQ (W CX) BP];
   mKeccakRound St Sk 2147516425 [MOVQ (W R12) BP] [XORQ (W AX) SI] [XORQ (W AX) BP] [XORQ (W R10) R15] [XORQ (W AX) SI] [XORQ (W AX) BP] [XORQ (W R10) R15] [XORQ (W AX) SI] [XORQ (W AX) BP] [XORQ (W R11) R15] [XORQ (W R9) R15] [XORQ (W BX) SI] [XORQ (W CX) BP];
   mKeccakRound Sk St 2147483658 [MOVQ (W R12) BP] [XORQ (W AX) SI] [XORQ (W AX) BP] [XORQ (W R10) R15] [XORQ (W AX) SI] [XORQ (W AX) BP] [XORQ (W R10) R15] [XORQ (W AX) SI] [XORQ (W AX) BP] [XORQ (W R11) R15] [XORQ (W R9) R15] [XORQ (W BX) SI] [XORQ (W CX) BP];
   mKeccakRound St Sk 2147516555 [MOVQ (W R12) BP] [XORQ (W AX) SI] [XORQ (W AX) BP] [XORQ (W R10) R15] [XORQ (W AX) SI] [XORQ (W AX) BP] [XORQ (W R10) R15] [XORQ (W AX) SI] [XORQ (W AX) BP] [XORQ (W R11) R15] [XORQ (W R9) R15] [XORQ (W BX) SI] [XORQ (W CX) BP];
   mKeccakRound Sk St 9223372036854775947 [MOVQ (W R12) BP] [XORQ (W AX) SI] [XORQ (W AX) BP] [XORQ (W R10) R15] [XORQ (W AX) SI] [XORQ (W AX) BP] [XORQ (W R10) R15] [XORQ (W AX) SI] [XORQ (W AX) BP] [XORQ (W R11) R15] [XORQ (W R9) R15] [XORQ (W BX) SI] [XORQ (W CX) BP];
   mKeccakRound St Sk 9223372036854808713 [MOVQ (W R12) BP] [XORQ (W AX) SI] [XORQ (W AX) BP] [XORQ (W R10) R15] [XORQ (W AX) SI] [XORQ (W AX) BP] [XORQ (W R10) R15] [XORQ (W AX) SI] [XORQ (W AX) BP] [XORQ (W R11) R15] [XORQ (W R9) R15] [XORQ (W BX) SI] [XORQ (W CX) BP];
   mKeccakRound Sk St 9223372036854808579 [MOVQ (W R12) BP] [XORQ (W AX) SI] [XORQ (W AX) BP] [XORQ (W R10) R15] [XORQ (W AX) SI] [XORQ (W AX) BP] [XORQ (W R10) R15] [XORQ (W AX) SI] [XORQ (W AX) BP] [XORQ (W R11) R15] [XORQ (W R9) R15] [XORQ (W BX) SI] [XORQ (W CX) BP];
   mKeccakRound St Sk 9223372036854808578 [MOVQ (W R12) BP] [XORQ (W AX) SI] [XORQ (W AX) BP] [XORQ (W R10) R15] [XORQ (W AX) SI] [XORQ (W AX) BP] [XORQ (W R10) R15] [XORQ (W AX) SI] [XORQ (W AX) BP] [XORQ (W R11) R15] [XORQ (W R9) R15] [XORQ (W BX) SI] [XORQ (W CX) BP];
   mKeccakRound Sk St 9223372036854775936 [MOVQ (W R12) BP] [XORQ (W AX) SI] [XORQ (W AX) BP] [XORQ (W R10) R15] [XORQ (W AX) SI] [XORQ (W AX) BP] [XORQ (W R10) R15] [XORQ (W AX) SI] [XORQ (W AX) BP] [XORQ (W R11) R15] [XORQ (W R9) R15] [XORQ (W BX) SI] [XORQ (W CX) BP];
   mKeccakRound St Sk 32778 [MOVQ (W R12) BP] [XORQ (W AX) SI] [XORQ (W AX) BP] [XORQ (W R10) R15] [XORQ (W AX) SI] [XORQ (W AX) BP] [XORQ (W R10) R15] [XORQ (W AX) SI] [XORQ (W AX) BP] [XORQ (W R11) R15] [XORQ (W R9) R15] [XORQ (W BX) SI] [XORQ (W CX) BP];
   mKeccakRound Sk St 9223372039002259466 [MOVQ (W R12) BP] [XORQ (W AX) SI] [XORQ (W AX) BP] [XORQ (W R10) R15] [XORQ (W AX) SI] [XORQ (W AX) BP] [XORQ (W R10) R15] [XORQ (W AX) SI] [XORQ (W AX) BP] [XORQ (W R11) R15] [XORQ (W R9) R15] [XORQ (W BX) SI] [XORQ (W CX) BP];
   mKeccakRound St Sk 9223372039002292353 [MOVQ (W R12) BP] [XORQ (W AX) SI] [XORQ (W AX) BP] [XORQ (W R10) R15] [XORQ (W AX) SI] [XORQ (W AX) BP] [XORQ (W R10) R15] [XORQ (W AX) SI] [XORQ (W AX) BP] [XORQ (W R11) R15] [XORQ (W R9) R15] [XORQ (W BX) SI] [XORQ (W CX) BP];
   mKeccakRound Sk St 9223372036854808704 [MOVQ (W R12) BP] [XORQ (W AX) SI] [XORQ (W AX) BP] [XORQ (W R10) R15] [XORQ (W AX) SI] [XORQ (W AX) BP] [XORQ (W R10) R15] [XORQ (W AX) SI] [XORQ (W AX) BP] [XORQ (W R11) R15] [XORQ (W R9) R15] [XORQ (W BX) SI] [XORQ (W CX) BP];
   mKeccakRound St Sk 2147483649 [MOVQ (W R12) BP] [XORQ (W AX) SI] [XORQ (W AX) BP] [XORQ (W R10) R15] [XORQ (W AX) SI] [XORQ (W AX) BP] [XORQ (W R10) R15] [XORQ (W AX) SI] [XORQ (W AX) BP] [XORQ (W R11) R15] [XORQ (W R9) R15] [XORQ (W BX) SI] [XORQ (W CX) BP];
   mKeccakRound Sk St 9223372039002292232 [] [] [] [] [] [] [] [] [] [] [] [] []].
(** keccakf_amd64.s, after the rounds *)
Definition keccak_leave : list kins :=
  [NOTQ (St 1); NOTQ (St 2); NOTQ (St 8); NOTQ (St 12); NOTQ (St 17); NOTQ (St 20)].
