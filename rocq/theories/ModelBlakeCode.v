(** The unrolled rounds of the BLAKE packages, transcribed line by line by
    tools/mkblake.py into instructions over the local variables v0 .. v15, the
    message words m[0] .. m[15] and the constants cst0 .. cst15. *)
From Coq Require Import List.
Import ListNotations.
Open Scope nat_scope.

Inductive binstr :=
| AddMC (a i k : nat)   (* va += m[i] ^ cstk *)
| AddM (a i : nat)      (* va += m[i] *)
| AddV (a b : nat)      (* va += vb *)
| XorV (a b : nat)      (* va ^= vb *)
| Ror (a r : nat).      (* va = va<<(W-r) | va>>r, W the word size *)

(* blake256/blake256block.go:76-187 *)
Definition blake256_code_0 : list binstr := [
  AddMC 0 0 1; AddV 0 4; XorV 12 0; Ror 12 16; AddV 8 12; XorV 4 8; Ror 4 12;
  AddMC 1 2 3; AddV 1 5; XorV 13 1; Ror 13 16; AddV 9 13; XorV 5 9; Ror 5 12;
  AddMC 2 4 5; AddV 2 6; XorV 14 2; Ror 14 16; AddV 10 14; XorV 6 10; Ror 6 12;
  AddMC 3 6 7; AddV 3 7; XorV 15 3; Ror 15 16; AddV 11 15; XorV 7 11; Ror 7 12;
  AddMC 2 5 4; AddV 2 6; XorV 14 2; Ror 14 8; AddV 10 14; XorV 6 10; Ror 6 7;
  AddMC 3 7 6; AddV 3 7; XorV 15 3; Ror 15 8; AddV 11 15; XorV 7 11; Ror 7 7;
  AddMC 1 3 2; AddV 1 5; XorV 13 1; Ror 13 8; AddV 9 13; XorV 5 9; Ror 5 7;
  AddMC 0 1 0; AddV 0 4; XorV 12 0; Ror 12 8; AddV 8 12; XorV 4 8; Ror 4 7;
  AddMC 0 8 9; AddV 0 5; XorV 15 0; Ror 15 16; AddV 10 15; XorV 5 10; Ror 5 12;
  AddMC 1 10 11; AddV 1 6; XorV 12 1; Ror 12 16; AddV 11 12; XorV 6 11; Ror 6 12;
  AddMC 2 12 13; AddV 2 7; XorV 13 2; Ror 13 16; AddV 8 13; XorV 7 8; Ror 7 12;
  AddMC 3 14 15; AddV 3 4; XorV 14 3; Ror 14 16; AddV 9 14; XorV 4 9; Ror 4 12;
  AddMC 2 13 12; AddV 2 7; XorV 13 2; Ror 13 8; AddV 8 13; XorV 7 8; Ror 7 7;
  AddMC 3 15 14; AddV 3 4; XorV 14 3; Ror 14 8; AddV 9 14; XorV 4 9; Ror 4 7;
  AddMC 1 11 10; AddV 1 6; XorV 12 1; Ror 12 8; AddV 11 12; XorV 6 11; Ror 6 7;
  AddMC 0 9 8; AddV 0 5; XorV 15 0; Ror 15 8; AddV 10 15; XorV 5 10; Ror 5 7].
(* blake256/blake256block.go:189-300 *)
Definition blake256_code_1 : list binstr := [
  AddMC 0 14 10; AddV 0 4; XorV 12 0; Ror 12 16; AddV 8 12; XorV 4 8; Ror 4 12;
  AddMC 1 4 8; AddV 1 5; XorV 13 1; Ror 13 16; AddV 9 13; XorV 5 9; Ror 5 12;
  AddMC 2 9 15; AddV 2 6; XorV 14 2; Ror 14 16; AddV 10 14; XorV 6 10; Ror 6 12;
  AddMC 3 13 6; AddV 3 7; XorV 15 3; Ror 15 16; AddV 11 15; XorV 7 11; Ror 7 12;
  AddMC 2 15 9; AddV 2 6; XorV 14 2; Ror 14 8; AddV 10 14; XorV 6 10; Ror 6 7;
  AddMC 3 6 13; AddV 3 7; XorV 15 3; Ror 15 8; AddV 11 15; XorV 7 11; Ror 7 7;
  AddMC 1 8 4; AddV 1 5; XorV 13 1; Ror 13 8; AddV 9 13; XorV 5 9; Ror 5 7;
  AddMC 0 10 14; AddV 0 4; XorV 12 0; Ror 12 8; AddV 8 12; XorV 4 8; Ror 4 7;
  AddMC 0 1 12; AddV 0 5; XorV 15 0; Ror 15 16; AddV 10 15; XorV 5 10; Ror 5 12;
  AddMC 1 0 2; AddV 1 6; XorV 12 1; Ror 12 16; AddV 11 12; XorV 6 11; Ror 6 12;
  AddMC 2 11 7; AddV 2 7; XorV 13 2; Ror 13 16; AddV 8 13; XorV 7 8; Ror 7 12;
  AddMC 3 5 3; AddV 3 4; XorV 14 3; Ror 14 16; AddV 9 14; XorV 4 9; Ror 4 12;
  AddMC 2 7 11; AddV 2 7; XorV 13 2; Ror 13 8; AddV 8 13; XorV 7 8; Ror 7 7;
  AddMC 3 3 5; AddV 3 4; XorV 14 3; Ror 14 8; AddV 9 14; XorV 4 9; Ror 4 7;
  AddMC 1 2 0; AddV 1 6; XorV 12 1; Ror 12 8; AddV 11 12; XorV 6 11; Ror 6 7;
  AddMC 0 12 1; AddV 0 5; XorV 15 0; Ror 15 8; AddV 10 15; XorV 5 10; Ror 5 7].
(* blake256/blake256block.go:303-414 *)
Definition blake256_code_2 : list binstr := [
  AddMC 0 11 8; AddV 0 4; XorV 12 0; Ror 12 16; AddV 8 12; XorV 4 8; Ror 4 12;
  AddMC 1 12 0; AddV 1 5; XorV 13 1; Ror 13 16; AddV 9 13; XorV 5 9; Ror 5 12;
  AddMC 2 5 2; AddV 2 6; XorV 14 2; Ror 14 16; AddV 10 14; XorV 6 10; Ror 6 12;
  AddMC 3 15 13; AddV 3 7; XorV 15 3; Ror 15 16; AddV 11 15; XorV 7 11; Ror 7 12;
  AddMC 2 2 5; AddV 2 6; XorV 14 2; Ror 14 8; AddV 10 14; XorV 6 10; Ror 6 7;
  AddMC 3 13 15; AddV 3 7; XorV 15 3; Ror 15 8; AddV 11 15; XorV 7 11; Ror 7 7;
  AddMC 1 0 12; AddV 1 5; XorV 13 1; Ror 13 8; AddV 9 13; XorV 5 9; Ror 5 7;
  AddMC 0 8 11; AddV 0 4; XorV 12 0; Ror 12 8; AddV 8 12; XorV 4 8; Ror 4 7;
  AddMC 0 10 14; AddV 0 5; XorV 15 0; Ror 15 16; AddV 10 15; XorV 5 10; Ror 5 12;
  AddMC 1 3 6; AddV 1 6; XorV 12 1; Ror 12 16; AddV 11 12; XorV 6 11; Ror 6 12;
  AddMC 2 7 1; AddV 2 7; XorV 13 2; Ror 13 16; AddV 8 13; XorV 7 8; Ror 7 12;
  AddMC 3 9 4; AddV 3 4; XorV 14 3; Ror 14 16; AddV 9 14; XorV 4 9; Ror 4 12;
  AddMC 2 1 7; AddV 2 7; XorV 13 2; Ror 13 8; AddV 8 13; XorV 7 8; Ror 7 7;
  AddMC 3 4 9; AddV 3 4; XorV 14 3; Ror 14 8; AddV 9 14; XorV 4 9; Ror 4 7;
  AddMC 1 6 3; AddV 1 6; XorV 12 1; Ror 12 8; AddV 11 12; XorV 6 11; Ror 6 7;
  AddMC 0 14 10; AddV 0 5; XorV 15 0; Ror 15 8; AddV 10 15; XorV 5 10; Ror 5 7].
(* blake256/blake256block.go:417-528 *)
Definition blake256_code_3 : list binstr := [
  AddMC 0 7 9; AddV 0 4; XorV 12 0; Ror 12 16; AddV 8 12; XorV 4 8; Ror 4 12;
  AddMC 1 3 1; AddV 1 5; XorV 13 1; Ror 13 16; AddV 9 13; XorV 5 9; Ror 5 12;
  AddMC 2 13 12; AddV 2 6; XorV 14 2; Ror 14 16; AddV 10 14; XorV 6 10; Ror 6 12;
  AddMC 3 11 14; AddV 3 7; XorV 15 3; Ror 15 16; AddV 11 15; XorV 7 11; Ror 7 12;
  AddMC 2 12 13; AddV 2 6; XorV 14 2; Ror 14 8; AddV 10 14; XorV 6 10; Ror 6 7;
  AddMC 3 14 11; AddV 3 7; XorV 15 3; Ror 15 8; AddV 11 15; XorV 7 11; Ror 7 7;
  AddMC 1 1 3; AddV 1 5; XorV 13 1; Ror 13 8; AddV 9 13; XorV 5 9; Ror 5 7;
  AddMC 0 9 7; AddV 0 4; XorV 12 0; Ror 12 8; AddV 8 12; XorV 4 8; Ror 4 7;
  AddMC 0 2 6; AddV 0 5; XorV 15 0; Ror 15 16; AddV 10 15; XorV 5 10; Ror 5 12;
  AddMC 1 5 10; AddV 1 6; XorV 12 1; Ror 12 16; AddV 11 12; XorV 6 11; Ror 6 12;
  AddMC 2 4 0; AddV 2 7; XorV 13 2; Ror 13 16; AddV 8 13; XorV 7 8; Ror 7 12;
  AddMC 3 15 8; AddV 3 4; XorV 14 3; Ror 14 16; AddV 9 14; XorV 4 9; Ror 4 12;
  AddMC 2 0 4; AddV 2 7; XorV 13 2; Ror 13 8; AddV 8 13; XorV 7 8; Ror 7 7;
  AddMC 3 8 15; AddV 3 4; XorV 14 3; Ror 14 8; AddV 9 14; XorV 4 9; Ror 4 7;
  AddMC 1 10 5; AddV 1 6; XorV 12 1; Ror 12 8; AddV 11 12; XorV 6 11; Ror 6 7;
  AddMC 0 6 2; AddV 0 5; XorV 15 0; Ror 15 8; AddV 10 15; XorV 5 10; Ror 5 7].
(* blake256/blake256block.go:531-642 *)
Definition blake256_code_4 : list binstr := [
  AddMC 0 9 0; AddV 0 4; XorV 12 0; Ror 12 16; AddV 8 12; XorV 4 8; Ror 4 12;
  AddMC 1 5 7; AddV 1 5; XorV 13 1; Ror 13 16; AddV 9 13; XorV 5 9; Ror 5 12;
  AddMC 2 2 4; AddV 2 6; XorV 14 2; Ror 14 16; AddV 10 14; XorV 6 10; Ror 6 12;
  AddMC 3 10 15; AddV 3 7; XorV 15 3; Ror 15 16; AddV 11 15; XorV 7 11; Ror 7 12;
  AddMC 2 4 2; AddV 2 6; XorV 14 2; Ror 14 8; AddV 10 14; XorV 6 10; Ror 6 7;
  AddMC 3 15 10; AddV 3 7; XorV 15 3; Ror 15 8; AddV 11 15; XorV 7 11; Ror 7 7;
  AddMC 1 7 5; AddV 1 5; XorV 13 1; Ror 13 8; AddV 9 13; XorV 5 9; Ror 5 7;
  AddMC 0 0 9; AddV 0 4; XorV 12 0; Ror 12 8; AddV 8 12; XorV 4 8; Ror 4 7;
  AddMC 0 14 1; AddV 0 5; XorV 15 0; Ror 15 16; AddV 10 15; XorV 5 10; Ror 5 12;
  AddMC 1 11 12; AddV 1 6; XorV 12 1; Ror 12 16; AddV 11 12; XorV 6 11; Ror 6 12;
  AddMC 2 6 8; AddV 2 7; XorV 13 2; Ror 13 16; AddV 8 13; XorV 7 8; Ror 7 12;
  AddMC 3 3 13; AddV 3 4; XorV 14 3; Ror 14 16; AddV 9 14; XorV 4 9; Ror 4 12;
  AddMC 2 8 6; AddV 2 7; XorV 13 2; Ror 13 8; AddV 8 13; XorV 7 8; Ror 7 7;
  AddMC 3 13 3; AddV 3 4; XorV 14 3; Ror 14 8; AddV 9 14; XorV 4 9; Ror 4 7;
  AddMC 1 12 11; AddV 1 6; XorV 12 1; Ror 12 8; AddV 11 12; XorV 6 11; Ror 6 7;
  AddMC 0 1 14; AddV 0 5; XorV 15 0; Ror 15 8; AddV 10 15; XorV 5 10; Ror 5 7].
(* blake256/blake256block.go:645-756 *)
Definition blake256_code_5 : list binstr := [
  AddMC 0 2 12; AddV 0 4; XorV 12 0; Ror 12 16; AddV 8 12; XorV 4 8; Ror 4 12;
  AddMC 1 6 10; AddV 1 5; XorV 13 1; Ror 13 16; AddV 9 13; XorV 5 9; Ror 5 12;
  AddMC 2 0 11; AddV 2 6; XorV 14 2; Ror 14 16; AddV 10 14; XorV 6 10; Ror 6 12;
  AddMC 3 8 3; AddV 3 7; XorV 15 3; Ror 15 16; AddV 11 15; XorV 7 11; Ror 7 12;
  AddMC 2 11 0; AddV 2 6; XorV 14 2; Ror 14 8; AddV 10 14; XorV 6 10; Ror 6 7;
  AddMC 3 3 8; AddV 3 7; XorV 15 3; Ror 15 8; AddV 11 15; XorV 7 11; Ror 7 7;
  AddMC 1 10 6; AddV 1 5; XorV 13 1; Ror 13 8; AddV 9 13; XorV 5 9; Ror 5 7;
  AddMC 0 12 2; AddV 0 4; XorV 12 0; Ror 12 8; AddV 8 12; XorV 4 8; Ror 4 7;
  AddMC 0 4 13; AddV 0 5; XorV 15 0; Ror 15 16; AddV 10 15; XorV 5 10; Ror 5 12;
  AddMC 1 7 5; AddV 1 6; XorV 12 1; Ror 12 16; AddV 11 12; XorV 6 11; Ror 6 12;
  AddMC 2 15 14; AddV 2 7; XorV 13 2; Ror 13 16; AddV 8 13; XorV 7 8; Ror 7 12;
  AddMC 3 1 9; AddV 3 4; XorV 14 3; Ror 14 16; AddV 9 14; XorV 4 9; Ror 4 12;
  AddMC 2 14 15; AddV 2 7; XorV 13 2; Ror 13 8; AddV 8 13; XorV 7 8; Ror 7 7;
  AddMC 3 9 1; AddV 3 4; XorV 14 3; Ror 14 8; AddV 9 14; XorV 4 9; Ror 4 7;
  AddMC 1 5 7; AddV 1 6; XorV 12 1; Ror 12 8; AddV 11 12; XorV 6 11; Ror 6 7;
  AddMC 0 13 4; AddV 0 5; XorV 15 0; Ror 15 8; AddV 10 15; XorV 5 10; Ror 5 7].
(* blake256/blake256block.go:759-870 *)
Definition blake256_code_6 : list binstr := [
  AddMC 0 12 5; AddV 0 4; XorV 12 0; Ror 12 16; AddV 8 12; XorV 4 8; Ror 4 12;
  AddMC 1 1 15; AddV 1 5; XorV 13 1; Ror 13 16; AddV 9 13; XorV 5 9; Ror 5 12;
  AddMC 2 14 13; AddV 2 6; XorV 14 2; Ror 14 16; AddV 10 14; XorV 6 10; Ror 6 12;
  AddMC 3 4 10; AddV 3 7; XorV 15 3; Ror 15 16; AddV 11 15; XorV 7 11; Ror 7 12;
  AddMC 2 13 14; AddV 2 6; XorV 14 2; Ror 14 8; AddV 10 14; XorV 6 10; Ror 6 7;
  AddMC 3 10 4; AddV 3 7; XorV 15 3; Ror 15 8; AddV 11 15; XorV 7 11; Ror 7 7;
  AddMC 1 15 1; AddV 1 5; XorV 13 1; Ror 13 8; AddV 9 13; XorV 5 9; Ror 5 7;
  AddMC 0 5 12; AddV 0 4; XorV 12 0; Ror 12 8; AddV 8 12; XorV 4 8; Ror 4 7;
  AddMC 0 0 7; AddV 0 5; XorV 15 0; Ror 15 16; AddV 10 15; XorV 5 10; Ror 5 12;
  AddMC 1 6 3; AddV 1 6; XorV 12 1; Ror 12 16; AddV 11 12; XorV 6 11; Ror 6 12;
  AddMC 2 9 2; AddV 2 7; XorV 13 2; Ror 13 16; AddV 8 13; XorV 7 8; Ror 7 12;
  AddMC 3 8 11; AddV 3 4; XorV 14 3; Ror 14 16; AddV 9 14; XorV 4 9; Ror 4 12;
  AddMC 2 2 9; AddV 2 7; XorV 13 2; Ror 13 8; AddV 8 13; XorV 7 8; Ror 7 7;
  AddMC 3 11 8; AddV 3 4; XorV 14 3; Ror 14 8; AddV 9 14; XorV 4 9; Ror 4 7;
  AddMC 1 3 6; AddV 1 6; XorV 12 1; Ror 12 8; AddV 11 12; XorV 6 11; Ror 6 7;
  AddMC 0 7 0; AddV 0 5; XorV 15 0; Ror 15 8; AddV 10 15; XorV 5 10; Ror 5 7].
(* blake256/blake256block.go:873-984 *)
Definition blake256_code_7 : list binstr := [
  AddMC 0 13 11; AddV 0 4; XorV 12 0; Ror 12 16; AddV 8 12; XorV 4 8; Ror 4 12;
  AddMC 1 7 14; AddV 1 5; XorV 13 1; Ror 13 16; AddV 9 13; XorV 5 9; Ror 5 12;
  AddMC 2 12 1; AddV 2 6; XorV 14 2; Ror 14 16; AddV 10 14; XorV 6 10; Ror 6 12;
  AddMC 3 3 9; AddV 3 7; XorV 15 3; Ror 15 16; AddV 11 15; XorV 7 11; Ror 7 12;
  AddMC 2 1 12; AddV 2 6; XorV 14 2; Ror 14 8; AddV 10 14; XorV 6 10; Ror 6 7;
  AddMC 3 9 3; AddV 3 7; XorV 15 3; Ror 15 8; AddV 11 15; XorV 7 11; Ror 7 7;
  AddMC 1 14 7; AddV 1 5; XorV 13 1; Ror 13 8; AddV 9 13; XorV 5 9; Ror 5 7;
  AddMC 0 11 13; AddV 0 4; XorV 12 0; Ror 12 8; AddV 8 12; XorV 4 8; Ror 4 7;
  AddMC 0 5 0; AddV 0 5; XorV 15 0; Ror 15 16; AddV 10 15; XorV 5 10; Ror 5 12;
  AddMC 1 15 4; AddV 1 6; XorV 12 1; Ror 12 16; AddV 11 12; XorV 6 11; Ror 6 12;
  AddMC 2 8 6; AddV 2 7; XorV 13 2; Ror 13 16; AddV 8 13; XorV 7 8; Ror 7 12;
  AddMC 3 2 10; AddV 3 4; XorV 14 3; Ror 14 16; AddV 9 14; XorV 4 9; Ror 4 12;
  AddMC 2 6 8; AddV 2 7; XorV 13 2; Ror 13 8; AddV 8 13; XorV 7 8; Ror 7 7;
  AddMC 3 10 2; AddV 3 4; XorV 14 3; Ror 14 8; AddV 9 14; XorV 4 9; Ror 4 7;
  AddMC 1 4 15; AddV 1 6; XorV 12 1; Ror 12 8; AddV 11 12; XorV 6 11; Ror 6 7;
  AddMC 0 0 5; AddV 0 5; XorV 15 0; Ror 15 8; AddV 10 15; XorV 5 10; Ror 5 7].
(* blake256/blake256block.go:987-1098 *)
Definition blake256_code_8 : list binstr := [
  AddMC 0 6 15; AddV 0 4; XorV 12 0; Ror 12 16; AddV 8 12; XorV 4 8; Ror 4 12;
  AddMC 1 14 9; AddV 1 5; XorV 13 1; Ror 13 16; AddV 9 13; XorV 5 9; Ror 5 12;
  AddMC 2 11 3; AddV 2 6; XorV 14 2; Ror 14 16; AddV 10 14; XorV 6 10; Ror 6 12;
  AddMC 3 0 8; AddV 3 7; XorV 15 3; Ror 15 16; AddV 11 15; XorV 7 11; Ror 7 12;
  AddMC 2 3 11; AddV 2 6; XorV 14 2; Ror 14 8; AddV 10 14; XorV 6 10; Ror 6 7;
  AddMC 3 8 0; AddV 3 7; XorV 15 3; Ror 15 8; AddV 11 15; XorV 7 11; Ror 7 7;
  AddMC 1 9 14; AddV 1 5; XorV 13 1; Ror 13 8; AddV 9 13; XorV 5 9; Ror 5 7;
  AddMC 0 15 6; AddV 0 4; XorV 12 0; Ror 12 8; AddV 8 12; XorV 4 8; Ror 4 7;
  AddMC 0 12 2; AddV 0 5; XorV 15 0; Ror 15 16; AddV 10 15; XorV 5 10; Ror 5 12;
  AddMC 1 13 7; AddV 1 6; XorV 12 1; Ror 12 16; AddV 11 12; XorV 6 11; Ror 6 12;
  AddMC 2 1 4; AddV 2 7; XorV 13 2; Ror 13 16; AddV 8 13; XorV 7 8; Ror 7 12;
  AddMC 3 10 5; AddV 3 4; XorV 14 3; Ror 14 16; AddV 9 14; XorV 4 9; Ror 4 12;
  AddMC 2 4 1; AddV 2 7; XorV 13 2; Ror 13 8; AddV 8 13; XorV 7 8; Ror 7 7;
  AddMC 3 5 10; AddV 3 4; XorV 14 3; Ror 14 8; AddV 9 14; XorV 4 9; Ror 4 7;
  AddMC 1 7 13; AddV 1 6; XorV 12 1; Ror 12 8; AddV 11 12; XorV 6 11; Ror 6 7;
  AddMC 0 2 12; AddV 0 5; XorV 15 0; Ror 15 8; AddV 10 15; XorV 5 10; Ror 5 7].
(* blake256/blake256block.go:1101-1212 *)
Definition blake256_code_9 : list binstr := [
  AddMC 0 10 2; AddV 0 4; XorV 12 0; Ror 12 16; AddV 8 12; XorV 4 8; Ror 4 12;
  AddMC 1 8 4; AddV 1 5; XorV 13 1; Ror 13 16; AddV 9 13; XorV 5 9; Ror 5 12;
  AddMC 2 7 6; AddV 2 6; XorV 14 2; Ror 14 16; AddV 10 14; XorV 6 10; Ror 6 12;
  AddMC 3 1 5; AddV 3 7; XorV 15 3; Ror 15 16; AddV 11 15; XorV 7 11; Ror 7 12;
  AddMC 2 6 7; AddV 2 6; XorV 14 2; Ror 14 8; AddV 10 14; XorV 6 10; Ror 6 7;
  AddMC 3 5 1; AddV 3 7; XorV 15 3; Ror 15 8; AddV 11 15; XorV 7 11; Ror 7 7;
  AddMC 1 4 8; AddV 1 5; XorV 13 1; Ror 13 8; AddV 9 13; XorV 5 9; Ror 5 7;
  AddMC 0 2 10; AddV 0 4; XorV 12 0; Ror 12 8; AddV 8 12; XorV 4 8; Ror 4 7;
  AddMC 0 15 11; AddV 0 5; XorV 15 0; Ror 15 16; AddV 10 15; XorV 5 10; Ror 5 12;
  AddMC 1 9 14; AddV 1 6; XorV 12 1; Ror 12 16; AddV 11 12; XorV 6 11; Ror 6 12;
  AddMC 2 3 12; AddV 2 7; XorV 13 2; Ror 13 16; AddV 8 13; XorV 7 8; Ror 7 12;
  AddMC 3 13 0; AddV 3 4; XorV 14 3; Ror 14 16; AddV 9 14; XorV 4 9; Ror 4 12;
  AddMC 2 12 3; AddV 2 7; XorV 13 2; Ror 13 8; AddV 8 13; XorV 7 8; Ror 7 7;
  AddMC 3 0 13; AddV 3 4; XorV 14 3; Ror 14 8; AddV 9 14; XorV 4 9; Ror 4 7;
  AddMC 1 14 9; AddV 1 6; XorV 12 1; Ror 12 8; AddV 11 12; XorV 6 11; Ror 6 7;
  AddMC 0 11 15; AddV 0 5; XorV 15 0; Ror 15 8; AddV 10 15; XorV 5 10; Ror 5 7].
(* blake256/blake256block.go:1215-1326 *)
Definition blake256_code_10 : list binstr := [
  AddMC 0 0 1; AddV 0 4; XorV 12 0; Ror 12 16; AddV 8 12; XorV 4 8; Ror 4 12;
  AddMC 1 2 3; AddV 1 5; XorV 13 1; Ror 13 16; AddV 9 13; XorV 5 9; Ror 5 12;
  AddMC 2 4 5; AddV 2 6; XorV 14 2; Ror 14 16; AddV 10 14; XorV 6 10; Ror 6 12;
  AddMC 3 6 7; AddV 3 7; XorV 15 3; Ror 15 16; AddV 11 15; XorV 7 11; Ror 7 12;
  AddMC 2 5 4; AddV 2 6; XorV 14 2; Ror 14 8; AddV 10 14; XorV 6 10; Ror 6 7;
  AddMC 3 7 6; AddV 3 7; XorV 15 3; Ror 15 8; AddV 11 15; XorV 7 11; Ror 7 7;
  AddMC 1 3 2; AddV 1 5; XorV 13 1; Ror 13 8; AddV 9 13; XorV 5 9; Ror 5 7;
  AddMC 0 1 0; AddV 0 4; XorV 12 0; Ror 12 8; AddV 8 12; XorV 4 8; Ror 4 7;
  AddMC 0 8 9; AddV 0 5; XorV 15 0; Ror 15 16; AddV 10 15; XorV 5 10; Ror 5 12;
  AddMC 1 10 11; AddV 1 6; XorV 12 1; Ror 12 16; AddV 11 12; XorV 6 11; Ror 6 12;
  AddMC 2 12 13; AddV 2 7; XorV 13 2; Ror 13 16; AddV 8 13; XorV 7 8; Ror 7 12;
  AddMC 3 14 15; AddV 3 4; XorV 14 3; Ror 14 16; AddV 9 14; XorV 4 9; Ror 4 12;
  AddMC 2 13 12; AddV 2 7; XorV 13 2; Ror 13 8; AddV 8 13; XorV 7 8; Ror 7 7;
  AddMC 3 15 14; AddV 3 4; XorV 14 3; Ror 14 8; AddV 9 14; XorV 4 9; Ror 4 7;
  AddMC 1 11 10; AddV 1 6; XorV 12 1; Ror 12 8; AddV 11 12; XorV 6 11; Ror 6 7;
  AddMC 0 9 8; AddV 0 5; XorV 15 0; Ror 15 8; AddV 10 15; XorV 5 10; Ror 5 7].
(* blake256/blake256block.go:1329-1440 *)
Definition blake256_code_11 : list binstr := [
  AddMC 0 14 10; AddV 0 4; XorV 12 0; Ror 12 16; AddV 8 12; XorV 4 8; Ror 4 12;
  AddMC 1 4 8; AddV 1 5; XorV 13 1; Ror 13 16; AddV 9 13; XorV 5 9; Ror 5 12;
  AddMC 2 9 15; AddV 2 6; XorV 14 2; Ror 14 16; AddV 10 14; XorV 6 10; Ror 6 12;
  AddMC 3 13 6; AddV 3 7; XorV 15 3; Ror 15 16; AddV 11 15; XorV 7 11; Ror 7 12;
  AddMC 2 15 9; AddV 2 6; XorV 14 2; Ror 14 8; AddV 10 14; XorV 6 10; Ror 6 7;
  AddMC 3 6 13; AddV 3 7; XorV 15 3; Ror 15 8; AddV 11 15; XorV 7 11; Ror 7 7;
  AddMC 1 8 4; AddV 1 5; XorV 13 1; Ror 13 8; AddV 9 13; XorV 5 9; Ror 5 7;
  AddMC 0 10 14; AddV 0 4; XorV 12 0; Ror 12 8; AddV 8 12; XorV 4 8; Ror 4 7;
  AddMC 0 1 12; AddV 0 5; XorV 15 0; Ror 15 16; AddV 10 15; XorV 5 10; Ror 5 12;
  AddMC 1 0 2; AddV 1 6; XorV 12 1; Ror 12 16; AddV 11 12; XorV 6 11; Ror 6 12;
  AddMC 2 11 7; AddV 2 7; XorV 13 2; Ror 13 16; AddV 8 13; XorV 7 8; Ror 7 12;
  AddMC 3 5 3; AddV 3 4; XorV 14 3; Ror 14 16; AddV 9 14; XorV 4 9; Ror 4 12;
  AddMC 2 7 11; AddV 2 7; XorV 13 2; Ror 13 8; AddV 8 13; XorV 7 8; Ror 7 7;
  AddMC 3 3 5; AddV 3 4; XorV 14 3; Ror 14 8; AddV 9 14; XorV 4 9; Ror 4 7;
  AddMC 1 2 0; AddV 1 6; XorV 12 1; Ror 12 8; AddV 11 12; XorV 6 11; Ror 6 7;
  AddMC 0 12 1; AddV 0 5; XorV 15 0; Ror 15 8; AddV 10 15; XorV 5 10; Ror 5 7].
(* blake256/blake256block.go:1442-1553 *)
Definition blake256_code_12 : list binstr := [
  AddMC 0 11 8; AddV 0 4; XorV 12 0; Ror 12 16; AddV 8 12; XorV 4 8; Ror 4 12;
  AddMC 1 12 0; AddV 1 5; XorV 13 1; Ror 13 16; AddV 9 13; XorV 5 9; Ror 5 12;
  AddMC 2 5 2; AddV 2 6; XorV 14 2; Ror 14 16; AddV 10 14; XorV 6 10; Ror 6 12;
  AddMC 3 15 13; AddV 3 7; XorV 15 3; Ror 15 16; AddV 11 15; XorV 7 11; Ror 7 12;
  AddMC 2 2 5; AddV 2 6; XorV 14 2; Ror 14 8; AddV 10 14; XorV 6 10; Ror 6 7;
  AddMC 3 13 15; AddV 3 7; XorV 15 3; Ror 15 8; AddV 11 15; XorV 7 11; Ror 7 7;
  AddMC 1 0 12; AddV 1 5; XorV 13 1; Ror 13 8; AddV 9 13; XorV 5 9; Ror 5 7;
  AddMC 0 8 11; AddV 0 4; XorV 12 0; Ror 12 8; AddV 8 12; XorV 4 8; Ror 4 7;
  AddMC 0 10 14; AddV 0 5; XorV 15 0; Ror 15 16; AddV 10 15; XorV 5 10; Ror 5 12;
  AddMC 1 3 6; AddV 1 6; XorV 12 1; Ror 12 16; AddV 11 12; XorV 6 11; Ror 6 12;
  AddMC 2 7 1; AddV 2 7; XorV 13 2; Ror 13 16; AddV 8 13; XorV 7 8; Ror 7 12;
  AddMC 3 9 4; AddV 3 4; XorV 14 3; Ror 14 16; AddV 9 14; XorV 4 9; Ror 4 12;
  AddMC 2 1 7; AddV 2 7; XorV 13 2; Ror 13 8; AddV 8 13; XorV 7 8; Ror 7 7;
  AddMC 3 4 9; AddV 3 4; XorV 14 3; Ror 14 8; AddV 9 14; XorV 4 9; Ror 4 7;
  AddMC 1 6 3; AddV 1 6; XorV 12 1; Ror 12 8; AddV 11 12; XorV 6 11; Ror 6 7;
  AddMC 0 14 10; AddV 0 5; XorV 15 0; Ror 15 8; AddV 10 15; XorV 5 10; Ror 5 7].
(* blake256/blake256block.go:1556-1667 *)
Definition blake256_code_13 : list binstr := [
  AddMC 0 7 9; AddV 0 4; XorV 12 0; Ror 12 16; AddV 8 12; XorV 4 8; Ror 4 12;
  AddMC 1 3 1; AddV 1 5; XorV 13 1; Ror 13 16; AddV 9 13; XorV 5 9; Ror 5 12;
  AddMC 2 13 12; AddV 2 6; XorV 14 2; Ror 14 16; AddV 10 14; XorV 6 10; Ror 6 12;
  AddMC 3 11 14; AddV 3 7; XorV 15 3; Ror 15 16; AddV 11 15; XorV 7 11; Ror 7 12;
  AddMC 2 12 13; AddV 2 6; XorV 14 2; Ror 14 8; AddV 10 14; XorV 6 10; Ror 6 7;
  AddMC 3 14 11; AddV 3 7; XorV 15 3; Ror 15 8; AddV 11 15; XorV 7 11; Ror 7 7;
  AddMC 1 1 3; AddV 1 5; XorV 13 1; Ror 13 8; AddV 9 13; XorV 5 9; Ror 5 7;
  AddMC 0 9 7; AddV 0 4; XorV 12 0; Ror 12 8; AddV 8 12; XorV 4 8; Ror 4 7;
  AddMC 0 2 6; AddV 0 5; XorV 15 0; Ror 15 16; AddV 10 15; XorV 5 10; Ror 5 12;
  AddMC 1 5 10; AddV 1 6; XorV 12 1; Ror 12 16; AddV 11 12; XorV 6 11; Ror 6 12;
  AddMC 2 4 0; AddV 2 7; XorV 13 2; Ror 13 16; AddV 8 13; XorV 7 8; Ror 7 12;
  AddMC 3 15 8; AddV 3 4; XorV 14 3; Ror 14 16; AddV 9 14; XorV 4 9; Ror 4 12;
  AddMC 2 0 4; AddV 2 7; XorV 13 2; Ror 13 8; AddV 8 13; XorV 7 8; Ror 7 7;
  AddMC 3 8 15; AddV 3 4; XorV 14 3; Ror 14 8; AddV 9 14; XorV 4 9; Ror 4 7;
  AddMC 1 10 5; AddV 1 6; XorV 12 1; Ror 12 8; AddV 11 12; XorV 6 11; Ror 6 7;
  AddMC 0 6 2; AddV 0 5; XorV 15 0; Ror 15 8; AddV 10 15; XorV 5 10; Ror 5 7].
(* blake256/blake256block.go:76-1667 *)
Definition blake256_code : list binstr :=
  blake256_code_0 ++ blake256_code_1 ++ blake256_code_2 ++ blake256_code_3 ++ blake256_code_4 ++ blake256_code_5 ++ blake256_code_6 ++ blake256_code_7 ++ blake256_code_8 ++ blake256_code_9 ++ blake256_code_10 ++ blake256_code_11 ++ blake256_code_12 ++ blake256_code_13.

(* blake512/blake512block.go:67-178 *)
Definition blake512_code_0 : list binstr := [
  AddMC 0 0 1; AddV 0 4; XorV 12 0; Ror 12 32; AddV 8 12; XorV 4 8; Ror 4 25;
  AddMC 1 2 3; AddV 1 5; XorV 13 1; Ror 13 32; AddV 9 13; XorV 5 9; Ror 5 25;
  AddMC 2 4 5; AddV 2 6; XorV 14 2; Ror 14 32; AddV 10 14; XorV 6 10; Ror 6 25;
  AddMC 3 6 7; AddV 3 7; XorV 15 3; Ror 15 32; AddV 11 15; XorV 7 11; Ror 7 25;
  AddMC 2 5 4; AddV 2 6; XorV 14 2; Ror 14 16; AddV 10 14; XorV 6 10; Ror 6 11;
  AddMC 3 7 6; AddV 3 7; XorV 15 3; Ror 15 16; AddV 11 15; XorV 7 11; Ror 7 11;
  AddMC 1 3 2; AddV 1 5; XorV 13 1; Ror 13 16; AddV 9 13; XorV 5 9; Ror 5 11;
  AddMC 0 1 0; AddV 0 4; XorV 12 0; Ror 12 16; AddV 8 12; XorV 4 8; Ror 4 11;
  AddMC 0 8 9; AddV 0 5; XorV 15 0; Ror 15 32; AddV 10 15; XorV 5 10; Ror 5 25;
  AddMC 1 10 11; AddV 1 6; XorV 12 1; Ror 12 32; AddV 11 12; XorV 6 11; Ror 6 25;
  AddMC 2 12 13; AddV 2 7; XorV 13 2; Ror 13 32; AddV 8 13; XorV 7 8; Ror 7 25;
  AddMC 3 14 15; AddV 3 4; XorV 14 3; Ror 14 32; AddV 9 14; XorV 4 9; Ror 4 25;
  AddMC 2 13 12; AddV 2 7; XorV 13 2; Ror 13 16; AddV 8 13; XorV 7 8; Ror 7 11;
  AddMC 3 15 14; AddV 3 4; XorV 14 3; Ror 14 16; AddV 9 14; XorV 4 9; Ror 4 11;
  AddMC 1 11 10; AddV 1 6; XorV 12 1; Ror 12 16; AddV 11 12; XorV 6 11; Ror 6 11;
  AddMC 0 9 8; AddV 0 5; XorV 15 0; Ror 15 16; AddV 10 15; XorV 5 10; Ror 5 11].
(* blake512/blake512block.go:180-291 *)
Definition blake512_code_1 : list binstr := [
  AddMC 0 14 10; AddV 0 4; XorV 12 0; Ror 12 32; AddV 8 12; XorV 4 8; Ror 4 25;
  AddMC 1 4 8; AddV 1 5; XorV 13 1; Ror 13 32; AddV 9 13; XorV 5 9; Ror 5 25;
  AddMC 2 9 15; AddV 2 6; XorV 14 2; Ror 14 32; AddV 10 14; XorV 6 10; Ror 6 25;
  AddMC 3 13 6; AddV 3 7; XorV 15 3; Ror 15 32; AddV 11 15; XorV 7 11; Ror 7 25;
  AddMC 2 15 9; AddV 2 6; XorV 14 2; Ror 14 16; AddV 10 14; XorV 6 10; Ror 6 11;
  AddMC 3 6 13; AddV 3 7; XorV 15 3; Ror 15 16; AddV 11 15; XorV 7 11; Ror 7 11;
  AddMC 1 8 4; AddV 1 5; XorV 13 1; Ror 13 16; AddV 9 13; XorV 5 9; Ror 5 11;
  AddMC 0 10 14; AddV 0 4; XorV 12 0; Ror 12 16; AddV 8 12; XorV 4 8; Ror 4 11;
  AddMC 0 1 12; AddV 0 5; XorV 15 0; Ror 15 32; AddV 10 15; XorV 5 10; Ror 5 25;
  AddMC 1 0 2; AddV 1 6; XorV 12 1; Ror 12 32; AddV 11 12; XorV 6 11; Ror 6 25;
  AddMC 2 11 7; AddV 2 7; XorV 13 2; Ror 13 32; AddV 8 13; XorV 7 8; Ror 7 25;
  AddMC 3 5 3; AddV 3 4; XorV 14 3; Ror 14 32; AddV 9 14; XorV 4 9; Ror 4 25;
  AddMC 2 7 11; AddV 2 7; XorV 13 2; Ror 13 16; AddV 8 13; XorV 7 8; Ror 7 11;
  AddMC 3 3 5; AddV 3 4; XorV 14 3; Ror 14 16; AddV 9 14; XorV 4 9; Ror 4 11;
  AddMC 1 2 0; AddV 1 6; XorV 12 1; Ror 12 16; AddV 11 12; XorV 6 11; Ror 6 11;
  AddMC 0 12 1; AddV 0 5; XorV 15 0; Ror 15 16; AddV 10 15; XorV 5 10; Ror 5 11].
(* blake512/blake512block.go:293-404 *)
Definition blake512_code_2 : list binstr := [
  AddMC 0 11 8; AddV 0 4; XorV 12 0; Ror 12 32; AddV 8 12; XorV 4 8; Ror 4 25;
  AddMC 1 12 0; AddV 1 5; XorV 13 1; Ror 13 32; AddV 9 13; XorV 5 9; Ror 5 25;
  AddMC 2 5 2; AddV 2 6; XorV 14 2; Ror 14 32; AddV 10 14; XorV 6 10; Ror 6 25;
  AddMC 3 15 13; AddV 3 7; XorV 15 3; Ror 15 32; AddV 11 15; XorV 7 11; Ror 7 25;
  AddMC 2 2 5; AddV 2 6; XorV 14 2; Ror 14 16; AddV 10 14; XorV 6 10; Ror 6 11;
  AddMC 3 13 15; AddV 3 7; XorV 15 3; Ror 15 16; AddV 11 15; XorV 7 11; Ror 7 11;
  AddMC 1 0 12; AddV 1 5; XorV 13 1; Ror 13 16; AddV 9 13; XorV 5 9; Ror 5 11;
  AddMC 0 8 11; AddV 0 4; XorV 12 0; Ror 12 16; AddV 8 12; XorV 4 8; Ror 4 11;
  AddMC 0 10 14; AddV 0 5; XorV 15 0; Ror 15 32; AddV 10 15; XorV 5 10; Ror 5 25;
  AddMC 1 3 6; AddV 1 6; XorV 12 1; Ror 12 32; AddV 11 12; XorV 6 11; Ror 6 25;
  AddMC 2 7 1; AddV 2 7; XorV 13 2; Ror 13 32; AddV 8 13; XorV 7 8; Ror 7 25;
  AddMC 3 9 4; AddV 3 4; XorV 14 3; Ror 14 32; AddV 9 14; XorV 4 9; Ror 4 25;
  AddMC 2 1 7; AddV 2 7; XorV 13 2; Ror 13 16; AddV 8 13; XorV 7 8; Ror 7 11;
  AddMC 3 4 9; AddV 3 4; XorV 14 3; Ror 14 16; AddV 9 14; XorV 4 9; Ror 4 11;
  AddMC 1 6 3; AddV 1 6; XorV 12 1; Ror 12 16; AddV 11 12; XorV 6 11; Ror 6 11;
  AddMC 0 14 10; AddV 0 5; XorV 15 0; Ror 15 16; AddV 10 15; XorV 5 10; Ror 5 11].
(* blake512/blake512block.go:406-517 *)
Definition blake512_code_3 : list binstr := [
  AddMC 0 7 9; AddV 0 4; XorV 12 0; Ror 12 32; AddV 8 12; XorV 4 8; Ror 4 25;
  AddMC 1 3 1; AddV 1 5; XorV 13 1; Ror 13 32; AddV 9 13; XorV 5 9; Ror 5 25;
  AddMC 2 13 12; AddV 2 6; XorV 14 2; Ror 14 32; AddV 10 14; XorV 6 10; Ror 6 25;
  AddMC 3 11 14; AddV 3 7; XorV 15 3; Ror 15 32; AddV 11 15; XorV 7 11; Ror 7 25;
  AddMC 2 12 13; AddV 2 6; XorV 14 2; Ror 14 16; AddV 10 14; XorV 6 10; Ror 6 11;
  AddMC 3 14 11; AddV 3 7; XorV 15 3; Ror 15 16; AddV 11 15; XorV 7 11; Ror 7 11;
  AddMC 1 1 3; AddV 1 5; XorV 13 1; Ror 13 16; AddV 9 13; XorV 5 9; Ror 5 11;
  AddMC 0 9 7; AddV 0 4; XorV 12 0; Ror 12 16; AddV 8 12; XorV 4 8; Ror 4 11;
  AddMC 0 2 6; AddV 0 5; XorV 15 0; Ror 15 32; AddV 10 15; XorV 5 10; Ror 5 25;
  AddMC 1 5 10; AddV 1 6; XorV 12 1; Ror 12 32; AddV 11 12; XorV 6 11; Ror 6 25;
  AddMC 2 4 0; AddV 2 7; XorV 13 2; Ror 13 32; AddV 8 13; XorV 7 8; Ror 7 25;
  AddMC 3 15 8; AddV 3 4; XorV 14 3; Ror 14 32; AddV 9 14; XorV 4 9; Ror 4 25;
  AddMC 2 0 4; AddV 2 7; XorV 13 2; Ror 13 16; AddV 8 13; XorV 7 8; Ror 7 11;
  AddMC 3 8 15; AddV 3 4; XorV 14 3; Ror 14 16; AddV 9 14; XorV 4 9; Ror 4 11;
  AddMC 1 10 5; AddV 1 6; XorV 12 1; Ror 12 16; AddV 11 12; XorV 6 11; Ror 6 11;
  AddMC 0 6 2; AddV 0 5; XorV 15 0; Ror 15 16; AddV 10 15; XorV 5 10; Ror 5 11].
(* blake512/blake512block.go:519-630 *)
Definition blake512_code_4 : list binstr := [
  AddMC 0 9 0; AddV 0 4; XorV 12 0; Ror 12 32; AddV 8 12; XorV 4 8; Ror 4 25;
  AddMC 1 5 7; AddV 1 5; XorV 13 1; Ror 13 32; AddV 9 13; XorV 5 9; Ror 5 25;
  AddMC 2 2 4; AddV 2 6; XorV 14 2; Ror 14 32; AddV 10 14; XorV 6 10; Ror 6 25;
  AddMC 3 10 15; AddV 3 7; XorV 15 3; Ror 15 32; AddV 11 15; XorV 7 11; Ror 7 25;
  AddMC 2 4 2; AddV 2 6; XorV 14 2; Ror 14 16; AddV 10 14; XorV 6 10; Ror 6 11;
  AddMC 3 15 10; AddV 3 7; XorV 15 3; Ror 15 16; AddV 11 15; XorV 7 11; Ror 7 11;
  AddMC 1 7 5; AddV 1 5; XorV 13 1; Ror 13 16; AddV 9 13; XorV 5 9; Ror 5 11;
  AddMC 0 0 9; AddV 0 4; XorV 12 0; Ror 12 16; AddV 8 12; XorV 4 8; Ror 4 11;
  AddMC 0 14 1; AddV 0 5; XorV 15 0; Ror 15 32; AddV 10 15; XorV 5 10; Ror 5 25;
  AddMC 1 11 12; AddV 1 6; XorV 12 1; Ror 12 32; AddV 11 12; XorV 6 11; Ror 6 25;
  AddMC 2 6 8; AddV 2 7; XorV 13 2; Ror 13 32; AddV 8 13; XorV 7 8; Ror 7 25;
  AddMC 3 3 13; AddV 3 4; XorV 14 3; Ror 14 32; AddV 9 14; XorV 4 9; Ror 4 25;
  AddMC 2 8 6; AddV 2 7; XorV 13 2; Ror 13 16; AddV 8 13; XorV 7 8; Ror 7 11;
  AddMC 3 13 3; AddV 3 4; XorV 14 3; Ror 14 16; AddV 9 14; XorV 4 9; Ror 4 11;
  AddMC 1 12 11; AddV 1 6; XorV 12 1; Ror 12 16; AddV 11 12; XorV 6 11; Ror 6 11;
  AddMC 0 1 14; AddV 0 5; XorV 15 0; Ror 15 16; AddV 10 15; XorV 5 10; Ror 5 11].
(* blake512/blake512block.go:632-743 *)
Definition blake512_code_5 : list binstr := [
  AddMC 0 2 12; AddV 0 4; XorV 12 0; Ror 12 32; AddV 8 12; XorV 4 8; Ror 4 25;
  AddMC 1 6 10; AddV 1 5; XorV 13 1; Ror 13 32; AddV 9 13; XorV 5 9; Ror 5 25;
  AddMC 2 0 11; AddV 2 6; XorV 14 2; Ror 14 32; AddV 10 14; XorV 6 10; Ror 6 25;
  AddMC 3 8 3; AddV 3 7; XorV 15 3; Ror 15 32; AddV 11 15; XorV 7 11; Ror 7 25;
  AddMC 2 11 0; AddV 2 6; XorV 14 2; Ror 14 16; AddV 10 14; XorV 6 10; Ror 6 11;
  AddMC 3 3 8; AddV 3 7; XorV 15 3; Ror 15 16; AddV 11 15; XorV 7 11; Ror 7 11;
  AddMC 1 10 6; AddV 1 5; XorV 13 1; Ror 13 16; AddV 9 13; XorV 5 9; Ror 5 11;
  AddMC 0 12 2; AddV 0 4; XorV 12 0; Ror 12 16; AddV 8 12; XorV 4 8; Ror 4 11;
  AddMC 0 4 13; AddV 0 5; XorV 15 0; Ror 15 32; AddV 10 15; XorV 5 10; Ror 5 25;
  AddMC 1 7 5; AddV 1 6; XorV 12 1; Ror 12 32; AddV 11 12; XorV 6 11; Ror 6 25;
  AddMC 2 15 14; AddV 2 7; XorV 13 2; Ror 13 32; AddV 8 13; XorV 7 8; Ror 7 25;
  AddMC 3 1 9; AddV 3 4; XorV 14 3; Ror 14 32; AddV 9 14; XorV 4 9; Ror 4 25;
  AddMC 2 14 15; AddV 2 7; XorV 13 2; Ror 13 16; AddV 8 13; XorV 7 8; Ror 7 11;
  AddMC 3 9 1; AddV 3 4; XorV 14 3; Ror 14 16; AddV 9 14; XorV 4 9; Ror 4 11;
  AddMC 1 5 7; AddV 1 6; XorV 12 1; Ror 12 16; AddV 11 12; XorV 6 11; Ror 6 11;
  AddMC 0 13 4; AddV 0 5; XorV 15 0; Ror 15 16; AddV 10 15; XorV 5 10; Ror 5 11].
(* blake512/blake512block.go:745-856 *)
Definition blake512_code_6 : list binstr := [
  AddMC 0 12 5; AddV 0 4; XorV 12 0; Ror 12 32; AddV 8 12; XorV 4 8; Ror 4 25;
  AddMC 1 1 15; AddV 1 5; XorV 13 1; Ror 13 32; AddV 9 13; XorV 5 9; Ror 5 25;
  AddMC 2 14 13; AddV 2 6; XorV 14 2; Ror 14 32; AddV 10 14; XorV 6 10; Ror 6 25;
  AddMC 3 4 10; AddV 3 7; XorV 15 3; Ror 15 32; AddV 11 15; XorV 7 11; Ror 7 25;
  AddMC 2 13 14; AddV 2 6; XorV 14 2; Ror 14 16; AddV 10 14; XorV 6 10; Ror 6 11;
  AddMC 3 10 4; AddV 3 7; XorV 15 3; Ror 15 16; AddV 11 15; XorV 7 11; Ror 7 11;
  AddMC 1 15 1; AddV 1 5; XorV 13 1; Ror 13 16; AddV 9 13; XorV 5 9; Ror 5 11;
  AddMC 0 5 12; AddV 0 4; XorV 12 0; Ror 12 16; AddV 8 12; XorV 4 8; Ror 4 11;
  AddMC 0 0 7; AddV 0 5; XorV 15 0; Ror 15 32; AddV 10 15; XorV 5 10; Ror 5 25;
  AddMC 1 6 3; AddV 1 6; XorV 12 1; Ror 12 32; AddV 11 12; XorV 6 11; Ror 6 25;
  AddMC 2 9 2; AddV 2 7; XorV 13 2; Ror 13 32; AddV 8 13; XorV 7 8; Ror 7 25;
  AddMC 3 8 11; AddV 3 4; XorV 14 3; Ror 14 32; AddV 9 14; XorV 4 9; Ror 4 25;
  AddMC 2 2 9; AddV 2 7; XorV 13 2; Ror 13 16; AddV 8 13; XorV 7 8; Ror 7 11;
  AddMC 3 11 8; AddV 3 4; XorV 14 3; Ror 14 16; AddV 9 14; XorV 4 9; Ror 4 11;
  AddMC 1 3 6; AddV 1 6; XorV 12 1; Ror 12 16; AddV 11 12; XorV 6 11; Ror 6 11;
  AddMC 0 7 0; AddV 0 5; XorV 15 0; Ror 15 16; AddV 10 15; XorV 5 10; Ror 5 11].
(* blake512/blake512block.go:858-969 *)
Definition blake512_code_7 : list binstr := [
  AddMC 0 13 11; AddV 0 4; XorV 12 0; Ror 12 32; AddV 8 12; XorV 4 8; Ror 4 25;
  AddMC 1 7 14; AddV 1 5; XorV 13 1; Ror 13 32; AddV 9 13; XorV 5 9; Ror 5 25;
  AddMC 2 12 1; AddV 2 6; XorV 14 2; Ror 14 32; AddV 10 14; XorV 6 10; Ror 6 25;
  AddMC 3 3 9; AddV 3 7; XorV 15 3; Ror 15 32; AddV 11 15; XorV 7 11; Ror 7 25;
  AddMC 2 1 12; AddV 2 6; XorV 14 2; Ror 14 16; AddV 10 14; XorV 6 10; Ror 6 11;
  AddMC 3 9 3; AddV 3 7; XorV 15 3; Ror 15 16; AddV 11 15; XorV 7 11; Ror 7 11;
  AddMC 1 14 7; AddV 1 5; XorV 13 1; Ror 13 16; AddV 9 13; XorV 5 9; Ror 5 11;
  AddMC 0 11 13; AddV 0 4; XorV 12 0; Ror 12 16; AddV 8 12; XorV 4 8; Ror 4 11;
  AddMC 0 5 0; AddV 0 5; XorV 15 0; Ror 15 32; AddV 10 15; XorV 5 10; Ror 5 25;
  AddMC 1 15 4; AddV 1 6; XorV 12 1; Ror 12 32; AddV 11 12; XorV 6 11; Ror 6 25;
  AddMC 2 8 6; AddV 2 7; XorV 13 2; Ror 13 32; AddV 8 13; XorV 7 8; Ror 7 25;
  AddMC 3 2 10; AddV 3 4; XorV 14 3; Ror 14 32; AddV 9 14; XorV 4 9; Ror 4 25;
  AddMC 2 6 8; AddV 2 7; XorV 13 2; Ror 13 16; AddV 8 13; XorV 7 8; Ror 7 11;
  AddMC 3 10 2; AddV 3 4; XorV 14 3; Ror 14 16; AddV 9 14; XorV 4 9; Ror 4 11;
  AddMC 1 4 15; AddV 1 6; XorV 12 1; Ror 12 16; AddV 11 12; XorV 6 11; Ror 6 11;
  AddMC 0 0 5; AddV 0 5; XorV 15 0; Ror 15 16; AddV 10 15; XorV 5 10; Ror 5 11].
(* blake512/blake512block.go:971-1082 *)
Definition blake512_code_8 : list binstr := [
  AddMC 0 6 15; AddV 0 4; XorV 12 0; Ror 12 32; AddV 8 12; XorV 4 8; Ror 4 25;
  AddMC 1 14 9; AddV 1 5; XorV 13 1; Ror 13 32; AddV 9 13; XorV 5 9; Ror 5 25;
  AddMC 2 11 3; AddV 2 6; XorV 14 2; Ror 14 32; AddV 10 14; XorV 6 10; Ror 6 25;
  AddMC 3 0 8; AddV 3 7; XorV 15 3; Ror 15 32; AddV 11 15; XorV 7 11; Ror 7 25;
  AddMC 2 3 11; AddV 2 6; XorV 14 2; Ror 14 16; AddV 10 14; XorV 6 10; Ror 6 11;
  AddMC 3 8 0; AddV 3 7; XorV 15 3; Ror 15 16; AddV 11 15; XorV 7 11; Ror 7 11;
  AddMC 1 9 14; AddV 1 5; XorV 13 1; Ror 13 16; AddV 9 13; XorV 5 9; Ror 5 11;
  AddMC 0 15 6; AddV 0 4; XorV 12 0; Ror 12 16; AddV 8 12; XorV 4 8; Ror 4 11;
  AddMC 0 12 2; AddV 0 5; XorV 15 0; Ror 15 32; AddV 10 15; XorV 5 10; Ror 5 25;
  AddMC 1 13 7; AddV 1 6; XorV 12 1; Ror 12 32; AddV 11 12; XorV 6 11; Ror 6 25;
  AddMC 2 1 4; AddV 2 7; XorV 13 2; Ror 13 32; AddV 8 13; XorV 7 8; Ror 7 25;
  AddMC 3 10 5; AddV 3 4; XorV 14 3; Ror 14 32; AddV 9 14; XorV 4 9; Ror 4 25;
  AddMC 2 4 1; AddV 2 7; XorV 13 2; Ror 13 16; AddV 8 13; XorV 7 8; Ror 7 11;
  AddMC 3 5 10; AddV 3 4; XorV 14 3; Ror 14 16; AddV 9 14; XorV 4 9; Ror 4 11;
  AddMC 1 7 13; AddV 1 6; XorV 12 1; Ror 12 16; AddV 11 12; XorV 6 11; Ror 6 11;
  AddMC 0 2 12; AddV 0 5; XorV 15 0; Ror 15 16; AddV 10 15; XorV 5 10; Ror 5 11].
(* blake512/blake512block.go:1084-1195 *)
Definition blake512_code_9 : list binstr := [
  AddMC 0 10 2; AddV 0 4; XorV 12 0; Ror 12 32; AddV 8 12; XorV 4 8; Ror 4 25;
  AddMC 1 8 4; AddV 1 5; XorV 13 1; Ror 13 32; AddV 9 13; XorV 5 9; Ror 5 25;
  AddMC 2 7 6; AddV 2 6; XorV 14 2; Ror 14 32; AddV 10 14; XorV 6 10; Ror 6 25;
  AddMC 3 1 5; AddV 3 7; XorV 15 3; Ror 15 32; AddV 11 15; XorV 7 11; Ror 7 25;
  AddMC 2 6 7; AddV 2 6; XorV 14 2; Ror 14 16; AddV 10 14; XorV 6 10; Ror 6 11;
  AddMC 3 5 1; AddV 3 7; XorV 15 3; Ror 15 16; AddV 11 15; XorV 7 11; Ror 7 11;
  AddMC 1 4 8; AddV 1 5; XorV 13 1; Ror 13 16; AddV 9 13; XorV 5 9; Ror 5 11;
  AddMC 0 2 10; AddV 0 4; XorV 12 0; Ror 12 16; AddV 8 12; XorV 4 8; Ror 4 11;
  AddMC 0 15 11; AddV 0 5; XorV 15 0; Ror 15 32; AddV 10 15; XorV 5 10; Ror 5 25;
  AddMC 1 9 14; AddV 1 6; XorV 12 1; Ror 12 32; AddV 11 12; XorV 6 11; Ror 6 25;
  AddMC 2 3 12; AddV 2 7; XorV 13 2; Ror 13 32; AddV 8 13; XorV 7 8; Ror 7 25;
  AddMC 3 13 0; AddV 3 4; XorV 14 3; Ror 14 32; AddV 9 14; XorV 4 9; Ror 4 25;
  AddMC 2 12 3; AddV 2 7; XorV 13 2; Ror 13 16; AddV 8 13; XorV 7 8; Ror 7 11;
  AddMC 3 0 13; AddV 3 4; XorV 14 3; Ror 14 16; AddV 9 14; XorV 4 9; Ror 4 11;
  AddMC 1 14 9; AddV 1 6; XorV 12 1; Ror 12 16; AddV 11 12; XorV 6 11; Ror 6 11;
  AddMC 0 11 15; AddV 0 5; XorV 15 0; Ror 15 16; AddV 10 15; XorV 5 10; Ror 5 11].
(* blake512/blake512block.go:1197-1308 *)
Definition blake512_code_10 : list binstr := [
  AddMC 0 0 1; AddV 0 4; XorV 12 0; Ror 12 32; AddV 8 12; XorV 4 8; Ror 4 25;
  AddMC 1 2 3; AddV 1 5; XorV 13 1; Ror 13 32; AddV 9 13; XorV 5 9; Ror 5 25;
  AddMC 2 4 5; AddV 2 6; XorV 14 2; Ror 14 32; AddV 10 14; XorV 6 10; Ror 6 25;
  AddMC 3 6 7; AddV 3 7; XorV 15 3; Ror 15 32; AddV 11 15; XorV 7 11; Ror 7 25;
  AddMC 2 5 4; AddV 2 6; XorV 14 2; Ror 14 16; AddV 10 14; XorV 6 10; Ror 6 11;
  AddMC 3 7 6; AddV 3 7; XorV 15 3; Ror 15 16; AddV 11 15; XorV 7 11; Ror 7 11;
  AddMC 1 3 2; AddV 1 5; XorV 13 1; Ror 13 16; AddV 9 13; XorV 5 9; Ror 5 11;
  AddMC 0 1 0; AddV 0 4; XorV 12 0; Ror 12 16; AddV 8 12; XorV 4 8; Ror 4 11;
  AddMC 0 8 9; AddV 0 5; XorV 15 0; Ror 15 32; AddV 10 15; XorV 5 10; Ror 5 25;
  AddMC 1 10 11; AddV 1 6; XorV 12 1; Ror 12 32; AddV 11 12; XorV 6 11; Ror 6 25;
  AddMC 2 12 13; AddV 2 7; XorV 13 2; Ror 13 32; AddV 8 13; XorV 7 8; Ror 7 25;
  AddMC 3 14 15; AddV 3 4; XorV 14 3; Ror 14 32; AddV 9 14; XorV 4 9; Ror 4 25;
  AddMC 2 13 12; AddV 2 7; XorV 13 2; Ror 13 16; AddV 8 13; XorV 7 8; Ror 7 11;
  AddMC 3 15 14; AddV 3 4; XorV 14 3; Ror 14 16; AddV 9 14; XorV 4 9; Ror 4 11;
  AddMC 1 11 10; AddV 1 6; XorV 12 1; Ror 12 16; AddV 11 12; XorV 6 11; Ror 6 11;
  AddMC 0 9 8; AddV 0 5; XorV 15 0; Ror 15 16; AddV 10 15; XorV 5 10; Ror 5 11].
(* blake512/blake512block.go:1311-1422 *)
Definition blake512_code_11 : list binstr := [
  AddMC 0 14 10; AddV 0 4; XorV 12 0; Ror 12 32; AddV 8 12; XorV 4 8; Ror 4 25;
  AddMC 1 4 8; AddV 1 5; XorV 13 1; Ror 13 32; AddV 9 13; XorV 5 9; Ror 5 25;
  AddMC 2 9 15; AddV 2 6; XorV 14 2; Ror 14 32; AddV 10 14; XorV 6 10; Ror 6 25;
  AddMC 3 13 6; AddV 3 7; XorV 15 3; Ror 15 32; AddV 11 15; XorV 7 11; Ror 7 25;
  AddMC 2 15 9; AddV 2 6; XorV 14 2; Ror 14 16; AddV 10 14; XorV 6 10; Ror 6 11;
  AddMC 3 6 13; AddV 3 7; XorV 15 3; Ror 15 16; AddV 11 15; XorV 7 11; Ror 7 11;
  AddMC 1 8 4; AddV 1 5; XorV 13 1; Ror 13 16; AddV 9 13; XorV 5 9; Ror 5 11;
  AddMC 0 10 14; AddV 0 4; XorV 12 0; Ror 12 16; AddV 8 12; XorV 4 8; Ror 4 11;
  AddMC 0 1 12; AddV 0 5; XorV 15 0; Ror 15 32; AddV 10 15; XorV 5 10; Ror 5 25;
  AddMC 1 0 2; AddV 1 6; XorV 12 1; Ror 12 32; AddV 11 12; XorV 6 11; Ror 6 25;
  AddMC 2 11 7; AddV 2 7; XorV 13 2; Ror 13 32; AddV 8 13; XorV 7 8; Ror 7 25;
  AddMC 3 5 3; AddV 3 4; XorV 14 3; Ror 14 32; AddV 9 14; XorV 4 9; Ror 4 25;
  AddMC 2 7 11; AddV 2 7; XorV 13 2; Ror 13 16; AddV 8 13; XorV 7 8; Ror 7 11;
  AddMC 3 3 5; AddV 3 4; XorV 14 3; Ror 14 16; AddV 9 14; XorV 4 9; Ror 4 11;
  AddMC 1 2 0; AddV 1 6; XorV 12 1; Ror 12 16; AddV 11 12; XorV 6 11; Ror 6 11;
  AddMC 0 12 1; AddV 0 5; XorV 15 0; Ror 15 16; AddV 10 15; XorV 5 10; Ror 5 11].
(* blake512/blake512block.go:1425-1536 *)
Definition blake512_code_12 : list binstr := [
  AddMC 0 11 8; AddV 0 4; XorV 12 0; Ror 12 32; AddV 8 12; XorV 4 8; Ror 4 25;
  AddMC 1 12 0; AddV 1 5; XorV 13 1; Ror 13 32; AddV 9 13; XorV 5 9; Ror 5 25;
  AddMC 2 5 2; AddV 2 6; XorV 14 2; Ror 14 32; AddV 10 14; XorV 6 10; Ror 6 25;
  AddMC 3 15 13; AddV 3 7; XorV 15 3; Ror 15 32; AddV 11 15; XorV 7 11; Ror 7 25;
  AddMC 2 2 5; AddV 2 6; XorV 14 2; Ror 14 16; AddV 10 14; XorV 6 10; Ror 6 11;
  AddMC 3 13 15; AddV 3 7; XorV 15 3; Ror 15 16; AddV 11 15; XorV 7 11; Ror 7 11;
  AddMC 1 0 12; AddV 1 5; XorV 13 1; Ror 13 16; AddV 9 13; XorV 5 9; Ror 5 11;
  AddMC 0 8 11; AddV 0 4; XorV 12 0; Ror 12 16; AddV 8 12; XorV 4 8; Ror 4 11;
  AddMC 0 10 14; AddV 0 5; XorV 15 0; Ror 15 32; AddV 10 15; XorV 5 10; Ror 5 25;
  AddMC 1 3 6; AddV 1 6; XorV 12 1; Ror 12 32; AddV 11 12; XorV 6 11; Ror 6 25;
  AddMC 2 7 1; AddV 2 7; XorV 13 2; Ror 13 32; AddV 8 13; XorV 7 8; Ror 7 25;
  AddMC 3 9 4; AddV 3 4; XorV 14 3; Ror 14 32; AddV 9 14; XorV 4 9; Ror 4 25;
  AddMC 2 1 7; AddV 2 7; XorV 13 2; Ror 13 16; AddV 8 13; XorV 7 8; Ror 7 11;
  AddMC 3 4 9; AddV 3 4; XorV 14 3; Ror 14 16; AddV 9 14; XorV 4 9; Ror 4 11;
  AddMC 1 6 3; AddV 1 6; XorV 12 1; Ror 12 16; AddV 11 12; XorV 6 11; Ror 6 11;
  AddMC 0 14 10; AddV 0 5; XorV 15 0; Ror 15 16; AddV 10 15; XorV 5 10; Ror 5 11].
(* blake512/blake512block.go:1538-1649 *)
Definition blake512_code_13 : list binstr := [
  AddMC 0 7 9; AddV 0 4; XorV 12 0; Ror 12 32; AddV 8 12; XorV 4 8; Ror 4 25;
  AddMC 1 3 1; AddV 1 5; XorV 13 1; Ror 13 32; AddV 9 13; XorV 5 9; Ror 5 25;
  AddMC 2 13 12; AddV 2 6; XorV 14 2; Ror 14 32; AddV 10 14; XorV 6 10; Ror 6 25;
  AddMC 3 11 14; AddV 3 7; XorV 15 3; Ror 15 32; AddV 11 15; XorV 7 11; Ror 7 25;
  AddMC 2 12 13; AddV 2 6; XorV 14 2; Ror 14 16; AddV 10 14; XorV 6 10; Ror 6 11;
  AddMC 3 14 11; AddV 3 7; XorV 15 3; Ror 15 16; AddV 11 15; XorV 7 11; Ror 7 11;
  AddMC 1 1 3; AddV 1 5; XorV 13 1; Ror 13 16; AddV 9 13; XorV 5 9; Ror 5 11;
  AddMC 0 9 7; AddV 0 4; XorV 12 0; Ror 12 16; AddV 8 12; XorV 4 8; Ror 4 11;
  AddMC 0 2 6; AddV 0 5; XorV 15 0; Ror 15 32; AddV 10 15; XorV 5 10; Ror 5 25;
  AddMC 1 5 10; AddV 1 6; XorV 12 1; Ror 12 32; AddV 11 12; XorV 6 11; Ror 6 25;
  AddMC 2 4 0; AddV 2 7; XorV 13 2; Ror 13 32; AddV 8 13; XorV 7 8; Ror 7 25;
  AddMC 3 15 8; AddV 3 4; XorV 14 3; Ror 14 32; AddV 9 14; XorV 4 9; Ror 4 25;
  AddMC 2 0 4; AddV 2 7; XorV 13 2; Ror 13 16; AddV 8 13; XorV 7 8; Ror 7 11;
  AddMC 3 8 15; AddV 3 4; XorV 14 3; Ror 14 16; AddV 9 14; XorV 4 9; Ror 4 11;
  AddMC 1 10 5; AddV 1 6; XorV 12 1; Ror 12 16; AddV 11 12; XorV 6 11; Ror 6 11;
  AddMC 0 6 2; AddV 0 5; XorV 15 0; Ror 15 16; AddV 10 15; XorV 5 10; Ror 5 11].
(* blake512/blake512block.go:1652-1763 *)
Definition blake512_code_14 : list binstr := [
  AddMC 0 9 0; AddV 0 4; XorV 12 0; Ror 12 32; AddV 8 12; XorV 4 8; Ror 4 25;
  AddMC 1 5 7; AddV 1 5; XorV 13 1; Ror 13 32; AddV 9 13; XorV 5 9; Ror 5 25;
  AddMC 2 2 4; AddV 2 6; XorV 14 2; Ror 14 32; AddV 10 14; XorV 6 10; Ror 6 25;
  AddMC 3 10 15; AddV 3 7; XorV 15 3; Ror 15 32; AddV 11 15; XorV 7 11; Ror 7 25;
  AddMC 2 4 2; AddV 2 6; XorV 14 2; Ror 14 16; AddV 10 14; XorV 6 10; Ror 6 11;
  AddMC 3 15 10; AddV 3 7; XorV 15 3; Ror 15 16; AddV 11 15; XorV 7 11; Ror 7 11;
  AddMC 1 7 5; AddV 1 5; XorV 13 1; Ror 13 16; AddV 9 13; XorV 5 9; Ror 5 11;
  AddMC 0 0 9; AddV 0 4; XorV 12 0; Ror 12 16; AddV 8 12; XorV 4 8; Ror 4 11;
  AddMC 0 14 1; AddV 0 5; XorV 15 0; Ror 15 32; AddV 10 15; XorV 5 10; Ror 5 25;
  AddMC 1 11 12; AddV 1 6; XorV 12 1; Ror 12 32; AddV 11 12; XorV 6 11; Ror 6 25;
  AddMC 2 6 8; AddV 2 7; XorV 13 2; Ror 13 32; AddV 8 13; XorV 7 8; Ror 7 25;
  AddMC 3 3 13; AddV 3 4; XorV 14 3; Ror 14 32; AddV 9 14; XorV 4 9; Ror 4 25;
  AddMC 2 8 6; AddV 2 7; XorV 13 2; Ror 13 16; AddV 8 13; XorV 7 8; Ror 7 11;
  AddMC 3 13 3; AddV 3 4; XorV 14 3; Ror 14 16; AddV 9 14; XorV 4 9; Ror 4 11;
  AddMC 1 12 11; AddV 1 6; XorV 12 1; Ror 12 16; AddV 11 12; XorV 6 11; Ror 6 11;
  AddMC 0 1 14; AddV 0 5; XorV 15 0; Ror 15 16; AddV 10 15; XorV 5 10; Ror 5 11].
(* blake512/blake512block.go:1766-1877 *)
Definition blake512_code_15 : list binstr := [
  AddMC 0 2 12; AddV 0 4; XorV 12 0; Ror 12 32; AddV 8 12; XorV 4 8; Ror 4 25;
  AddMC 1 6 10; AddV 1 5; XorV 13 1; Ror 13 32; AddV 9 13; XorV 5 9; Ror 5 25;
  AddMC 2 0 11; AddV 2 6; XorV 14 2; Ror 14 32; AddV 10 14; XorV 6 10; Ror 6 25;
  AddMC 3 8 3; AddV 3 7; XorV 15 3; Ror 15 32; AddV 11 15; XorV 7 11; Ror 7 25;
  AddMC 2 11 0; AddV 2 6; XorV 14 2; Ror 14 16; AddV 10 14; XorV 6 10; Ror 6 11;
  AddMC 3 3 8; AddV 3 7; XorV 15 3; Ror 15 16; AddV 11 15; XorV 7 11; Ror 7 11;
  AddMC 1 10 6; AddV 1 5; XorV 13 1; Ror 13 16; AddV 9 13; XorV 5 9; Ror 5 11;
  AddMC 0 12 2; AddV 0 4; XorV 12 0; Ror 12 16; AddV 8 12; XorV 4 8; Ror 4 11;
  AddMC 0 4 13; AddV 0 5; XorV 15 0; Ror 15 32; AddV 10 15; XorV 5 10; Ror 5 25;
  AddMC 1 7 5; AddV 1 6; XorV 12 1; Ror 12 32; AddV 11 12; XorV 6 11; Ror 6 25;
  AddMC 2 15 14; AddV 2 7; XorV 13 2; Ror 13 32; AddV 8 13; XorV 7 8; Ror 7 25;
  AddMC 3 1 9; AddV 3 4; XorV 14 3; Ror 14 32; AddV 9 14; XorV 4 9; Ror 4 25;
  AddMC 2 14 15; AddV 2 7; XorV 13 2; Ror 13 16; AddV 8 13; XorV 7 8; Ror 7 11;
  AddMC 3 9 1; AddV 3 4; XorV 14 3; Ror 14 16; AddV 9 14; XorV 4 9; Ror 4 11;
  AddMC 1 5 7; AddV 1 6; XorV 12 1; Ror 12 16; AddV 11 12; XorV 6 11; Ror 6 11;
  AddMC 0 13 4; AddV 0 5; XorV 15 0; Ror 15 16; AddV 10 15; XorV 5 10; Ror 5 11].
(* blake512/blake512block.go:67-1877 *)
Definition blake512_code : list binstr :=
  blake512_code_0 ++ blake512_code_1 ++ blake512_code_2 ++ blake512_code_3 ++ blake512_code_4 ++ blake512_code_5 ++ blake512_code_6 ++ blake512_code_7 ++ blake512_code_8 ++ blake512_code_9 ++ blake512_code_10 ++ blake512_code_11 ++ blake512_code_12 ++ blake512_code_13 ++ blake512_code_14 ++ blake512_code_15.

(* blake2s/block.go:43-154 *)
Definition blake2s_code_0 : list binstr := [
  AddM 0 0; AddV 0 4; XorV 12 0; Ror 12 16; AddV 8 12; XorV 4 8; Ror 4 12;
  AddM 1 2; AddV 1 5; XorV 13 1; Ror 13 16; AddV 9 13; XorV 5 9; Ror 5 12;
  AddM 2 4; AddV 2 6; XorV 14 2; Ror 14 16; AddV 10 14; XorV 6 10; Ror 6 12;
  AddM 3 6; AddV 3 7; XorV 15 3; Ror 15 16; AddV 11 15; XorV 7 11; Ror 7 12;
  AddM 2 5; AddV 2 6; XorV 14 2; Ror 14 8; AddV 10 14; XorV 6 10; Ror 6 7;
  AddM 3 7; AddV 3 7; XorV 15 3; Ror 15 8; AddV 11 15; XorV 7 11; Ror 7 7;
  AddM 1 3; AddV 1 5; XorV 13 1; Ror 13 8; AddV 9 13; XorV 5 9; Ror 5 7;
  AddM 0 1; AddV 0 4; XorV 12 0; Ror 12 8; AddV 8 12; XorV 4 8; Ror 4 7;
  AddM 0 8; AddV 0 5; XorV 15 0; Ror 15 16; AddV 10 15; XorV 5 10; Ror 5 12;
  AddM 1 10; AddV 1 6; XorV 12 1; Ror 12 16; AddV 11 12; XorV 6 11; Ror 6 12;
  AddM 2 12; AddV 2 7; XorV 13 2; Ror 13 16; AddV 8 13; XorV 7 8; Ror 7 12;
  AddM 3 14; AddV 3 4; XorV 14 3; Ror 14 16; AddV 9 14; XorV 4 9; Ror 4 12;
  AddM 2 13; AddV 2 7; XorV 13 2; Ror 13 8; AddV 8 13; XorV 7 8; Ror 7 7;
  AddM 3 15; AddV 3 4; XorV 14 3; Ror 14 8; AddV 9 14; XorV 4 9; Ror 4 7;
  AddM 1 11; AddV 1 6; XorV 12 1; Ror 12 8; AddV 11 12; XorV 6 11; Ror 6 7;
  AddM 0 9; AddV 0 5; XorV 15 0; Ror 15 8; AddV 10 15; XorV 5 10; Ror 5 7].
(* blake2s/block.go:156-267 *)
Definition blake2s_code_1 : list binstr := [
  AddM 0 14; AddV 0 4; XorV 12 0; Ror 12 16; AddV 8 12; XorV 4 8; Ror 4 12;
  AddM 1 4; AddV 1 5; XorV 13 1; Ror 13 16; AddV 9 13; XorV 5 9; Ror 5 12;
  AddM 2 9; AddV 2 6; XorV 14 2; Ror 14 16; AddV 10 14; XorV 6 10; Ror 6 12;
  AddM 3 13; AddV 3 7; XorV 15 3; Ror 15 16; AddV 11 15; XorV 7 11; Ror 7 12;
  AddM 2 15; AddV 2 6; XorV 14 2; Ror 14 8; AddV 10 14; XorV 6 10; Ror 6 7;
  AddM 3 6; AddV 3 7; XorV 15 3; Ror 15 8; AddV 11 15; XorV 7 11; Ror 7 7;
  AddM 1 8; AddV 1 5; XorV 13 1; Ror 13 8; AddV 9 13; XorV 5 9; Ror 5 7;
  AddM 0 10; AddV 0 4; XorV 12 0; Ror 12 8; AddV 8 12; XorV 4 8; Ror 4 7;
  AddM 0 1; AddV 0 5; XorV 15 0; Ror 15 16; AddV 10 15; XorV 5 10; Ror 5 12;
  AddM 1 0; AddV 1 6; XorV 12 1; Ror 12 16; AddV 11 12; XorV 6 11; Ror 6 12;
  AddM 2 11; AddV 2 7; XorV 13 2; Ror 13 16; AddV 8 13; XorV 7 8; Ror 7 12;
  AddM 3 5; AddV 3 4; XorV 14 3; Ror 14 16; AddV 9 14; XorV 4 9; Ror 4 12;
  AddM 2 7; AddV 2 7; XorV 13 2; Ror 13 8; AddV 8 13; XorV 7 8; Ror 7 7;
  AddM 3 3; AddV 3 4; XorV 14 3; Ror 14 8; AddV 9 14; XorV 4 9; Ror 4 7;
  AddM 1 2; AddV 1 6; XorV 12 1; Ror 12 8; AddV 11 12; XorV 6 11; Ror 6 7;
  AddM 0 12; AddV 0 5; XorV 15 0; Ror 15 8; AddV 10 15; XorV 5 10; Ror 5 7].
(* blake2s/block.go:270-381 *)
Definition blake2s_code_2 : list binstr := [
  AddM 0 11; AddV 0 4; XorV 12 0; Ror 12 16; AddV 8 12; XorV 4 8; Ror 4 12;
  AddM 1 12; AddV 1 5; XorV 13 1; Ror 13 16; AddV 9 13; XorV 5 9; Ror 5 12;
  AddM 2 5; AddV 2 6; XorV 14 2; Ror 14 16; AddV 10 14; XorV 6 10; Ror 6 12;
  AddM 3 15; AddV 3 7; XorV 15 3; Ror 15 16; AddV 11 15; XorV 7 11; Ror 7 12;
  AddM 2 2; AddV 2 6; XorV 14 2; Ror 14 8; AddV 10 14; XorV 6 10; Ror 6 7;
  AddM 3 13; AddV 3 7; XorV 15 3; Ror 15 8; AddV 11 15; XorV 7 11; Ror 7 7;
  AddM 1 0; AddV 1 5; XorV 13 1; Ror 13 8; AddV 9 13; XorV 5 9; Ror 5 7;
  AddM 0 8; AddV 0 4; XorV 12 0; Ror 12 8; AddV 8 12; XorV 4 8; Ror 4 7;
  AddM 0 10; AddV 0 5; XorV 15 0; Ror 15 16; AddV 10 15; XorV 5 10; Ror 5 12;
  AddM 1 3; AddV 1 6; XorV 12 1; Ror 12 16; AddV 11 12; XorV 6 11; Ror 6 12;
  AddM 2 7; AddV 2 7; XorV 13 2; Ror 13 16; AddV 8 13; XorV 7 8; Ror 7 12;
  AddM 3 9; AddV 3 4; XorV 14 3; Ror 14 16; AddV 9 14; XorV 4 9; Ror 4 12;
  AddM 2 1; AddV 2 7; XorV 13 2; Ror 13 8; AddV 8 13; XorV 7 8; Ror 7 7;
  AddM 3 4; AddV 3 4; XorV 14 3; Ror 14 8; AddV 9 14; XorV 4 9; Ror 4 7;
  AddM 1 6; AddV 1 6; XorV 12 1; Ror 12 8; AddV 11 12; XorV 6 11; Ror 6 7;
  AddM 0 14; AddV 0 5; XorV 15 0; Ror 15 8; AddV 10 15; XorV 5 10; Ror 5 7].
(* blake2s/block.go:384-495 *)
Definition blake2s_code_3 : list binstr := [
  AddM 0 7; AddV 0 4; XorV 12 0; Ror 12 16; AddV 8 12; XorV 4 8; Ror 4 12;
  AddM 1 3; AddV 1 5; XorV 13 1; Ror 13 16; AddV 9 13; XorV 5 9; Ror 5 12;
  AddM 2 13; AddV 2 6; XorV 14 2; Ror 14 16; AddV 10 14; XorV 6 10; Ror 6 12;
  AddM 3 11; AddV 3 7; XorV 15 3; Ror 15 16; AddV 11 15; XorV 7 11; Ror 7 12;
  AddM 2 12; AddV 2 6; XorV 14 2; Ror 14 8; AddV 10 14; XorV 6 10; Ror 6 7;
  AddM 3 14; AddV 3 7; XorV 15 3; Ror 15 8; AddV 11 15; XorV 7 11; Ror 7 7;
  AddM 1 1; AddV 1 5; XorV 13 1; Ror 13 8; AddV 9 13; XorV 5 9; Ror 5 7;
  AddM 0 9; AddV 0 4; XorV 12 0; Ror 12 8; AddV 8 12; XorV 4 8; Ror 4 7;
  AddM 0 2; AddV 0 5; XorV 15 0; Ror 15 16; AddV 10 15; XorV 5 10; Ror 5 12;
  AddM 1 5; AddV 1 6; XorV 12 1; Ror 12 16; AddV 11 12; XorV 6 11; Ror 6 12;
  AddM 2 4; AddV 2 7; XorV 13 2; Ror 13 16; AddV 8 13; XorV 7 8; Ror 7 12;
  AddM 3 15; AddV 3 4; XorV 14 3; Ror 14 16; AddV 9 14; XorV 4 9; Ror 4 12;
  AddM 2 0; AddV 2 7; XorV 13 2; Ror 13 8; AddV 8 13; XorV 7 8; Ror 7 7;
  AddM 3 8; AddV 3 4; XorV 14 3; Ror 14 8; AddV 9 14; XorV 4 9; Ror 4 7;
  AddM 1 10; AddV 1 6; XorV 12 1; Ror 12 8; AddV 11 12; XorV 6 11; Ror 6 7;
  AddM 0 6; AddV 0 5; XorV 15 0; Ror 15 8; AddV 10 15; XorV 5 10; Ror 5 7].
(* blake2s/block.go:498-609 *)
Definition blake2s_code_4 : list binstr := [
  AddM 0 9; AddV 0 4; XorV 12 0; Ror 12 16; AddV 8 12; XorV 4 8; Ror 4 12;
  AddM 1 5; AddV 1 5; XorV 13 1; Ror 13 16; AddV 9 13; XorV 5 9; Ror 5 12;
  AddM 2 2; AddV 2 6; XorV 14 2; Ror 14 16; AddV 10 14; XorV 6 10; Ror 6 12;
  AddM 3 10; AddV 3 7; XorV 15 3; Ror 15 16; AddV 11 15; XorV 7 11; Ror 7 12;
  AddM 2 4; AddV 2 6; XorV 14 2; Ror 14 8; AddV 10 14; XorV 6 10; Ror 6 7;
  AddM 3 15; AddV 3 7; XorV 15 3; Ror 15 8; AddV 11 15; XorV 7 11; Ror 7 7;
  AddM 1 7; AddV 1 5; XorV 13 1; Ror 13 8; AddV 9 13; XorV 5 9; Ror 5 7;
  AddM 0 0; AddV 0 4; XorV 12 0; Ror 12 8; AddV 8 12; XorV 4 8; Ror 4 7;
  AddM 0 14; AddV 0 5; XorV 15 0; Ror 15 16; AddV 10 15; XorV 5 10; Ror 5 12;
  AddM 1 11; AddV 1 6; XorV 12 1; Ror 12 16; AddV 11 12; XorV 6 11; Ror 6 12;
  AddM 2 6; AddV 2 7; XorV 13 2; Ror 13 16; AddV 8 13; XorV 7 8; Ror 7 12;
  AddM 3 3; AddV 3 4; XorV 14 3; Ror 14 16; AddV 9 14; XorV 4 9; Ror 4 12;
  AddM 2 8; AddV 2 7; XorV 13 2; Ror 13 8; AddV 8 13; XorV 7 8; Ror 7 7;
  AddM 3 13; AddV 3 4; XorV 14 3; Ror 14 8; AddV 9 14; XorV 4 9; Ror 4 7;
  AddM 1 12; AddV 1 6; XorV 12 1; Ror 12 8; AddV 11 12; XorV 6 11; Ror 6 7;
  AddM 0 1; AddV 0 5; XorV 15 0; Ror 15 8; AddV 10 15; XorV 5 10; Ror 5 7].
(* blake2s/block.go:612-723 *)
Definition blake2s_code_5 : list binstr := [
  AddM 0 2; AddV 0 4; XorV 12 0; Ror 12 16; AddV 8 12; XorV 4 8; Ror 4 12;
  AddM 1 6; AddV 1 5; XorV 13 1; Ror 13 16; AddV 9 13; XorV 5 9; Ror 5 12;
  AddM 2 0; AddV 2 6; XorV 14 2; Ror 14 16; AddV 10 14; XorV 6 10; Ror 6 12;
  AddM 3 8; AddV 3 7; XorV 15 3; Ror 15 16; AddV 11 15; XorV 7 11; Ror 7 12;
  AddM 2 11; AddV 2 6; XorV 14 2; Ror 14 8; AddV 10 14; XorV 6 10; Ror 6 7;
  AddM 3 3; AddV 3 7; XorV 15 3; Ror 15 8; AddV 11 15; XorV 7 11; Ror 7 7;
  AddM 1 10; AddV 1 5; XorV 13 1; Ror 13 8; AddV 9 13; XorV 5 9; Ror 5 7;
  AddM 0 12; AddV 0 4; XorV 12 0; Ror 12 8; AddV 8 12; XorV 4 8; Ror 4 7;
  AddM 0 4; AddV 0 5; XorV 15 0; Ror 15 16; AddV 10 15; XorV 5 10; Ror 5 12;
  AddM 1 7; AddV 1 6; XorV 12 1; Ror 12 16; AddV 11 12; XorV 6 11; Ror 6 12;
  AddM 2 15; AddV 2 7; XorV 13 2; Ror 13 16; AddV 8 13; XorV 7 8; Ror 7 12;
  AddM 3 1; AddV 3 4; XorV 14 3; Ror 14 16; AddV 9 14; XorV 4 9; Ror 4 12;
  AddM 2 14; AddV 2 7; XorV 13 2; Ror 13 8; AddV 8 13; XorV 7 8; Ror 7 7;
  AddM 3 9; AddV 3 4; XorV 14 3; Ror 14 8; AddV 9 14; XorV 4 9; Ror 4 7;
  AddM 1 5; AddV 1 6; XorV 12 1; Ror 12 8; AddV 11 12; XorV 6 11; Ror 6 7;
  AddM 0 13; AddV 0 5; XorV 15 0; Ror 15 8; AddV 10 15; XorV 5 10; Ror 5 7].
(* blake2s/block.go:726-837 *)
Definition blake2s_code_6 : list binstr := [
  AddM 0 12; AddV 0 4; XorV 12 0; Ror 12 16; AddV 8 12; XorV 4 8; Ror 4 12;
  AddM 1 1; AddV 1 5; XorV 13 1; Ror 13 16; AddV 9 13; XorV 5 9; Ror 5 12;
  AddM 2 14; AddV 2 6; XorV 14 2; Ror 14 16; AddV 10 14; XorV 6 10; Ror 6 12;
  AddM 3 4; AddV 3 7; XorV 15 3; Ror 15 16; AddV 11 15; XorV 7 11; Ror 7 12;
  AddM 2 13; AddV 2 6; XorV 14 2; Ror 14 8; AddV 10 14; XorV 6 10; Ror 6 7;
  AddM 3 10; AddV 3 7; XorV 15 3; Ror 15 8; AddV 11 15; XorV 7 11; Ror 7 7;
  AddM 1 15; AddV 1 5; XorV 13 1; Ror 13 8; AddV 9 13; XorV 5 9; Ror 5 7;
  AddM 0 5; AddV 0 4; XorV 12 0; Ror 12 8; AddV 8 12; XorV 4 8; Ror 4 7;
  AddM 0 0; AddV 0 5; XorV 15 0; Ror 15 16; AddV 10 15; XorV 5 10; Ror 5 12;
  AddM 1 6; AddV 1 6; XorV 12 1; Ror 12 16; AddV 11 12; XorV 6 11; Ror 6 12;
  AddM 2 9; AddV 2 7; XorV 13 2; Ror 13 16; AddV 8 13; XorV 7 8; Ror 7 12;
  AddM 3 8; AddV 3 4; XorV 14 3; Ror 14 16; AddV 9 14; XorV 4 9; Ror 4 12;
  AddM 2 2; AddV 2 7; XorV 13 2; Ror 13 8; AddV 8 13; XorV 7 8; Ror 7 7;
  AddM 3 11; AddV 3 4; XorV 14 3; Ror 14 8; AddV 9 14; XorV 4 9; Ror 4 7;
  AddM 1 3; AddV 1 6; XorV 12 1; Ror 12 8; AddV 11 12; XorV 6 11; Ror 6 7;
  AddM 0 7; AddV 0 5; XorV 15 0; Ror 15 8; AddV 10 15; XorV 5 10; Ror 5 7].
(* blake2s/block.go:840-951 *)
Definition blake2s_code_7 : list binstr := [
  AddM 0 13; AddV 0 4; XorV 12 0; Ror 12 16; AddV 8 12; XorV 4 8; Ror 4 12;
  AddM 1 7; AddV 1 5; XorV 13 1; Ror 13 16; AddV 9 13; XorV 5 9; Ror 5 12;
  AddM 2 12; AddV 2 6; XorV 14 2; Ror 14 16; AddV 10 14; XorV 6 10; Ror 6 12;
  AddM 3 3; AddV 3 7; XorV 15 3; Ror 15 16; AddV 11 15; XorV 7 11; Ror 7 12;
  AddM 2 1; AddV 2 6; XorV 14 2; Ror 14 8; AddV 10 14; XorV 6 10; Ror 6 7;
  AddM 3 9; AddV 3 7; XorV 15 3; Ror 15 8; AddV 11 15; XorV 7 11; Ror 7 7;
  AddM 1 14; AddV 1 5; XorV 13 1; Ror 13 8; AddV 9 13; XorV 5 9; Ror 5 7;
  AddM 0 11; AddV 0 4; XorV 12 0; Ror 12 8; AddV 8 12; XorV 4 8; Ror 4 7;
  AddM 0 5; AddV 0 5; XorV 15 0; Ror 15 16; AddV 10 15; XorV 5 10; Ror 5 12;
  AddM 1 15; AddV 1 6; XorV 12 1; Ror 12 16; AddV 11 12; XorV 6 11; Ror 6 12;
  AddM 2 8; AddV 2 7; XorV 13 2; Ror 13 16; AddV 8 13; XorV 7 8; Ror 7 12;
  AddM 3 2; AddV 3 4; XorV 14 3; Ror 14 16; AddV 9 14; XorV 4 9; Ror 4 12;
  AddM 2 6; AddV 2 7; XorV 13 2; Ror 13 8; AddV 8 13; XorV 7 8; Ror 7 7;
  AddM 3 10; AddV 3 4; XorV 14 3; Ror 14 8; AddV 9 14; XorV 4 9; Ror 4 7;
  AddM 1 4; AddV 1 6; XorV 12 1; Ror 12 8; AddV 11 12; XorV 6 11; Ror 6 7;
  AddM 0 0; AddV 0 5; XorV 15 0; Ror 15 8; AddV 10 15; XorV 5 10; Ror 5 7].
(* blake2s/block.go:954-1065 *)
Definition blake2s_code_8 : list binstr := [
  AddM 0 6; AddV 0 4; XorV 12 0; Ror 12 16; AddV 8 12; XorV 4 8; Ror 4 12;
  AddM 1 14; AddV 1 5; XorV 13 1; Ror 13 16; AddV 9 13; XorV 5 9; Ror 5 12;
  AddM 2 11; AddV 2 6; XorV 14 2; Ror 14 16; AddV 10 14; XorV 6 10; Ror 6 12;
  AddM 3 0; AddV 3 7; XorV 15 3; Ror 15 16; AddV 11 15; XorV 7 11; Ror 7 12;
  AddM 2 3; AddV 2 6; XorV 14 2; Ror 14 8; AddV 10 14; XorV 6 10; Ror 6 7;
  AddM 3 8; AddV 3 7; XorV 15 3; Ror 15 8; AddV 11 15; XorV 7 11; Ror 7 7;
  AddM 1 9; AddV 1 5; XorV 13 1; Ror 13 8; AddV 9 13; XorV 5 9; Ror 5 7;
  AddM 0 15; AddV 0 4; XorV 12 0; Ror 12 8; AddV 8 12; XorV 4 8; Ror 4 7;
  AddM 0 12; AddV 0 5; XorV 15 0; Ror 15 16; AddV 10 15; XorV 5 10; Ror 5 12;
  AddM 1 13; AddV 1 6; XorV 12 1; Ror 12 16; AddV 11 12; XorV 6 11; Ror 6 12;
  AddM 2 1; AddV 2 7; XorV 13 2; Ror 13 16; AddV 8 13; XorV 7 8; Ror 7 12;
  AddM 3 10; AddV 3 4; XorV 14 3; Ror 14 16; AddV 9 14; XorV 4 9; Ror 4 12;
  AddM 2 4; AddV 2 7; XorV 13 2; Ror 13 8; AddV 8 13; XorV 7 8; Ror 7 7;
  AddM 3 5; AddV 3 4; XorV 14 3; Ror 14 8; AddV 9 14; XorV 4 9; Ror 4 7;
  AddM 1 7; AddV 1 6; XorV 12 1; Ror 12 8; AddV 11 12; XorV 6 11; Ror 6 7;
  AddM 0 2; AddV 0 5; XorV 15 0; Ror 15 8; AddV 10 15; XorV 5 10; Ror 5 7].
(* blake2s/block.go:1068-1179 *)
Definition blake2s_code_9 : list binstr := [
  AddM 0 10; AddV 0 4; XorV 12 0; Ror 12 16; AddV 8 12; XorV 4 8; Ror 4 12;
  AddM 1 8; AddV 1 5; XorV 13 1; Ror 13 16; AddV 9 13; XorV 5 9; Ror 5 12;
  AddM 2 7; AddV 2 6; XorV 14 2; Ror 14 16; AddV 10 14; XorV 6 10; Ror 6 12;
  AddM 3 1; AddV 3 7; XorV 15 3; Ror 15 16; AddV 11 15; XorV 7 11; Ror 7 12;
  AddM 2 6; AddV 2 6; XorV 14 2; Ror 14 8; AddV 10 14; XorV 6 10; Ror 6 7;
  AddM 3 5; AddV 3 7; XorV 15 3; Ror 15 8; AddV 11 15; XorV 7 11; Ror 7 7;
  AddM 1 4; AddV 1 5; XorV 13 1; Ror 13 8; AddV 9 13; XorV 5 9; Ror 5 7;
  AddM 0 2; AddV 0 4; XorV 12 0; Ror 12 8; AddV 8 12; XorV 4 8; Ror 4 7;
  AddM 0 15; AddV 0 5; XorV 15 0; Ror 15 16; AddV 10 15; XorV 5 10; Ror 5 12;
  AddM 1 9; AddV 1 6; XorV 12 1; Ror 12 16; AddV 11 12; XorV 6 11; Ror 6 12;
  AddM 2 3; AddV 2 7; XorV 13 2; Ror 13 16; AddV 8 13; XorV 7 8; Ror 7 12;
  AddM 3 13; AddV 3 4; XorV 14 3; Ror 14 16; AddV 9 14; XorV 4 9; Ror 4 12;
  AddM 2 12; AddV 2 7; XorV 13 2; Ror 13 8; AddV 8 13; XorV 7 8; Ror 7 7;
  AddM 3 0; AddV 3 4; XorV 14 3; Ror 14 8; AddV 9 14; XorV 4 9; Ror 4 7;
  AddM 1 14; AddV 1 6; XorV 12 1; Ror 12 8; AddV 11 12; XorV 6 11; Ror 6 7;
  AddM 0 11; AddV 0 5; XorV 15 0; Ror 15 8; AddV 10 15; XorV 5 10; Ror 5 7].
(* blake2s/block.go:43-1179 *)
Definition blake2s_code : list binstr :=
  blake2s_code_0 ++ blake2s_code_1 ++ blake2s_code_2 ++ blake2s_code_3 ++ blake2s_code_4 ++ blake2s_code_5 ++ blake2s_code_6 ++ blake2s_code_7 ++ blake2s_code_8 ++ blake2s_code_9.

