(** Generated by tools/mksha3.py from /repo/sha3/keccakf.go; do not edit. *)
From Coq Require Import ZArith List.
Import ListNotations.
Open Scope Z_scope.

(** One assignment of keccakF1600.  The variables are numbered: a[i] is i, t is 25,
    bc0 to bc4 are 26 to 30, d0 to d4 are 31 to 35. *)
Inductive kinstr : Set :=
| Xor5 (x a b c d e : nat)    (* x = a ^ b ^ c ^ d ^ e *)
| XorRol1 (x a b : nat)       (* x = a ^ (b<<1 | b>>63) *)
| Xor2 (x a b : nat)          (* x = a ^ b *)
| Rol (x a k : nat)           (* x = a<<k | a>>(64-k) *)
| Chi (x a b c : nat)         (* x = a ^ (b &^ c) *)
| ChiRc (x a b c k : nat).    (* x = a ^ (b &^ c) ^ rc[i+k] *)

(* keccakf.go:10-35 *)
Definition keccak_rc : list Z :=
  [0x0000000000000001; 0x0000000000008082; 0x800000000000808A;
   0x8000000080008000; 0x000000000000808B; 0x0000000080000001;
   0x8000000080008081; 0x8000000000008009; 0x000000000000008A;
   0x0000000000000088; 0x0000000080008009; 0x000000008000000A;
   0x000000008000808B; 0x800000000000008B; 0x8000000000008089;
   0x8000000000008003; 0x8000000000008002; 0x8000000000000080;
   0x000000000000800A; 0x800000008000000A; 0x8000000080008081;
   0x8000000000008080; 0x0000000080000001; 0x8000000080008008].

(* keccakf.go:48 on: "Round 1" *)
Definition keccak_code_0 : list kinstr :=
  [Xor5 26 0 5 10 15 20; Xor5 27 1 6 11 16 21; Xor5 28 2 7 12 17 22; Xor5 29 3 8 13 18 23;
   Xor5 30 4 9 14 19 24; XorRol1 31 30 27; XorRol1 32 26 28; XorRol1 33 27 29;
   XorRol1 34 28 30; XorRol1 35 29 26; Xor2 26 0 31; Xor2 25 6 32;
   Rol 27 25 44; Xor2 25 12 33; Rol 28 25 43; Xor2 25 18 34;
   Rol 29 25 21; Xor2 25 24 35; Rol 30 25 14; ChiRc 0 26 28 27 0;
   Chi 6 27 29 28; Chi 12 28 30 29; Chi 18 29 26 30; Chi 24 30 27 26;
   Xor2 25 10 31; Rol 28 25 3; Xor2 25 16 32; Rol 29 25 45;
   Xor2 25 22 33; Rol 30 25 61; Xor2 25 3 34; Rol 26 25 28;
   Xor2 25 9 35; Rol 27 25 20; Chi 10 26 28 27; Chi 16 27 29 28;
   Chi 22 28 30 29; Chi 3 29 26 30; Chi 9 30 27 26; Xor2 25 20 31;
   Rol 30 25 18; Xor2 25 1 32; Rol 26 25 1; Xor2 25 7 33;
   Rol 27 25 6; Xor2 25 13 34; Rol 28 25 25; Xor2 25 19 35;
   Rol 29 25 8; Chi 20 26 28 27; Chi 1 27 29 28; Chi 7 28 30 29;
   Chi 13 29 26 30; Chi 19 30 27 26; Xor2 25 5 31; Rol 27 25 36;
   Xor2 25 11 32; Rol 28 25 10; Xor2 25 17 33; Rol 29 25 15;
   Xor2 25 23 34; Rol 30 25 56; Xor2 25 4 35; Rol 26 25 27;
   Chi 5 26 28 27; Chi 11 27 29 28; Chi 17 28 30 29; Chi 23 29 26 30;
   Chi 4 30 27 26; Xor2 25 15 31; Rol 29 25 41; Xor2 25 21 32;
   Rol 30 25 2; Xor2 25 2 33; Rol 26 25 62; Xor2 25 8 34;
   Rol 27 25 55; Xor2 25 14 35; Rol 28 25 39; Chi 15 26 28 27;
   Chi 21 27 29 28; Chi 2 28 30 29; Chi 8 29 26 30; Chi 14 30 27 26].
(* keccakf.go:139 on: "Round 2" *)
Definition keccak_code_1 : list kinstr :=
  [Xor5 26 0 5 10 15 20; Xor5 27 1 6 11 16 21; Xor5 28 2 7 12 17 22; Xor5 29 3 8 13 18 23;
   Xor5 30 4 9 14 19 24; XorRol1 31 30 27; XorRol1 32 26 28; XorRol1 33 27 29;
   XorRol1 34 28 30; XorRol1 35 29 26; Xor2 26 0 31; Xor2 25 16 32;
   Rol 27 25 44; Xor2 25 7 33; Rol 28 25 43; Xor2 25 23 34;
   Rol 29 25 21; Xor2 25 14 35; Rol 30 25 14; ChiRc 0 26 28 27 1;
   Chi 16 27 29 28; Chi 7 28 30 29; Chi 23 29 26 30; Chi 14 30 27 26;
   Xor2 25 20 31; Rol 28 25 3; Xor2 25 11 32; Rol 29 25 45;
   Xor2 25 2 33; Rol 30 25 61; Xor2 25 18 34; Rol 26 25 28;
   Xor2 25 9 35; Rol 27 25 20; Chi 20 26 28 27; Chi 11 27 29 28;
   Chi 2 28 30 29; Chi 18 29 26 30; Chi 9 30 27 26; Xor2 25 15 31;
   Rol 30 25 18; Xor2 25 6 32; Rol 26 25 1; Xor2 25 22 33;
   Rol 27 25 6; Xor2 25 13 34; Rol 28 25 25; Xor2 25 4 35;
   Rol 29 25 8; Chi 15 26 28 27; Chi 6 27 29 28; Chi 22 28 30 29;
   Chi 13 29 26 30; Chi 4 30 27 26; Xor2 25 10 31; Rol 27 25 36;
   Xor2 25 1 32; Rol 28 25 10; Xor2 25 17 33; Rol 29 25 15;
   Xor2 25 8 34; Rol 30 25 56; Xor2 25 24 35; Rol 26 25 27;
   Chi 10 26 28 27; Chi 1 27 29 28; Chi 17 28 30 29; Chi 8 29 26 30;
   Chi 24 30 27 26; Xor2 25 5 31; Rol 29 25 41; Xor2 25 21 32;
   Rol 30 25 2; Xor2 25 12 33; Rol 26 25 62; Xor2 25 3 34;
   Rol 27 25 55; Xor2 25 19 35; Rol 28 25 39; Chi 5 26 28 27;
   Chi 21 27 29 28; Chi 12 28 30 29; Chi 3 29 26 30; Chi 19 30 27 26].
(* keccakf.go:230 on: "Round 3" *)
Definition keccak_code_2 : list kinstr :=
  [Xor5 26 0 5 10 15 20; Xor5 27 1 6 11 16 21; Xor5 28 2 7 12 17 22; Xor5 29 3 8 13 18 23;
   Xor5 30 4 9 14 19 24; XorRol1 31 30 27; XorRol1 32 26 28; XorRol1 33 27 29;
   XorRol1 34 28 30; XorRol1 35 29 26; Xor2 26 0 31; Xor2 25 11 32;
   Rol 27 25 44; Xor2 25 22 33; Rol 28 25 43; Xor2 25 8 34;
   Rol 29 25 21; Xor2 25 19 35; Rol 30 25 14; ChiRc 0 26 28 27 2;
   Chi 11 27 29 28; Chi 22 28 30 29; Chi 8 29 26 30; Chi 19 30 27 26;
   Xor2 25 15 31; Rol 28 25 3; Xor2 25 1 32; Rol 29 25 45;
   Xor2 25 12 33; Rol 30 25 61; Xor2 25 23 34; Rol 26 25 28;
   Xor2 25 9 35; Rol 27 25 20; Chi 15 26 28 27; Chi 1 27 29 28;
   Chi 12 28 30 29; Chi 23 29 26 30; Chi 9 30 27 26; Xor2 25 5 31;
   Rol 30 25 18; Xor2 25 16 32; Rol 26 25 1; Xor2 25 2 33;
   Rol 27 25 6; Xor2 25 13 34; Rol 28 25 25; Xor2 25 24 35;
   Rol 29 25 8; Chi 5 26 28 27; Chi 16 27 29 28; Chi 2 28 30 29;
   Chi 13 29 26 30; Chi 24 30 27 26; Xor2 25 20 31; Rol 27 25 36;
   Xor2 25 6 32; Rol 28 25 10; Xor2 25 17 33; Rol 29 25 15;
   Xor2 25 3 34; Rol 30 25 56; Xor2 25 14 35; Rol 26 25 27;
   Chi 20 26 28 27; Chi 6 27 29 28; Chi 17 28 30 29; Chi 3 29 26 30;
   Chi 14 30 27 26; Xor2 25 10 31; Rol 29 25 41; Xor2 25 21 32;
   Rol 30 25 2; Xor2 25 7 33; Rol 26 25 62; Xor2 25 18 34;
   Rol 27 25 55; Xor2 25 4 35; Rol 28 25 39; Chi 10 26 28 27;
   Chi 21 27 29 28; Chi 7 28 30 29; Chi 18 29 26 30; Chi 4 30 27 26].
(* keccakf.go:321 on: "Round 4" *)
Definition keccak_code_3 : list kinstr :=
  [Xor5 26 0 5 10 15 20; Xor5 27 1 6 11 16 21; Xor5 28 2 7 12 17 22; Xor5 29 3 8 13 18 23;
   Xor5 30 4 9 14 19 24; XorRol1 31 30 27; XorRol1 32 26 28; XorRol1 33 27 29;
   XorRol1 34 28 30; XorRol1 35 29 26; Xor2 26 0 31; Xor2 25 1 32;
   Rol 27 25 44; Xor2 25 2 33; Rol 28 25 43; Xor2 25 3 34;
   Rol 29 25 21; Xor2 25 4 35; Rol 30 25 14; ChiRc 0 26 28 27 3;
   Chi 1 27 29 28; Chi 2 28 30 29; Chi 3 29 26 30; Chi 4 30 27 26;
   Xor2 25 5 31; Rol 28 25 3; Xor2 25 6 32; Rol 29 25 45;
   Xor2 25 7 33; Rol 30 25 61; Xor2 25 8 34; Rol 26 25 28;
   Xor2 25 9 35; Rol 27 25 20; Chi 5 26 28 27; Chi 6 27 29 28;
   Chi 7 28 30 29; Chi 8 29 26 30; Chi 9 30 27 26; Xor2 25 10 31;
   Rol 30 25 18; Xor2 25 11 32; Rol 26 25 1; Xor2 25 12 33;
   Rol 27 25 6; Xor2 25 13 34; Rol 28 25 25; Xor2 25 14 35;
   Rol 29 25 8; Chi 10 26 28 27; Chi 11 27 29 28; Chi 12 28 30 29;
   Chi 13 29 26 30; Chi 14 30 27 26; Xor2 25 15 31; Rol 27 25 36;
   Xor2 25 16 32; Rol 28 25 10; Xor2 25 17 33; Rol 29 25 15;
   Xor2 25 18 34; Rol 30 25 56; Xor2 25 19 35; Rol 26 25 27;
   Chi 15 26 28 27; Chi 16 27 29 28; Chi 17 28 30 29; Chi 18 29 26 30;
   Chi 19 30 27 26; Xor2 25 20 31; Rol 29 25 41; Xor2 25 21 32;
   Rol 30 25 2; Xor2 25 22 33; Rol 26 25 62; Xor2 25 23 34;
   Rol 27 25 55; Xor2 25 24 35; Rol 28 25 39; Chi 20 26 28 27;
   Chi 21 27 29 28; Chi 22 28 30 29; Chi 23 29 26 30; Chi 24 30 27 26].

Definition keccak_code : list kinstr := keccak_code_0 ++ keccak_code_1 ++ keccak_code_2 ++ keccak_code_3.
