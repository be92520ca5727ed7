(** The SM3 cryptographic hash (GB/T 32905-2016), written from the standard:
    section 4 (constants and functions) and section 5 (padding, iteration). *)
From Coq Require Import ZArith List.
From Verif Require Import Base Words.
Import ListNotations.
Open Scope Z_scope.

Module SM3Spec.
(** Cyclic left rotation of a 32-bit word by k places, and addition mod 2^32. *)
Definition rol (x k : Z) : Z := (x * 2 ^ (k mod 32)) mod 2 ^ 32 + x / 2 ^ (32 - k mod 32).
Infix "<<<" := rol (at level 45).
Definition add (x y : Z) : Z := (x + y) mod 2 ^ 32.
Infix "[+]" := add (at level 50, left associativity).
Infix "(+)" := Z.lxor (at level 51, left associativity).

(** 4.1 *)
Definition IV : regs :=
  Regs 0x7380166f 0x4914b2b9 0x172442d7 0xda8a0600 0xa96f30bc 0x163138aa 0xe38dee4d 0xb0fb0e4e.
(** 4.2 *)
Definition T (j : nat) : Z := if Nat.ltb j 16 then 0x79cc4519 else 0x7a879d8a.
(** 4.3 *)
Definition FF (j : nat) (x y z : Z) : Z :=
  if Nat.ltb j 16 then x (+) y (+) z
  else Z.lor (Z.lor (Z.land x y) (Z.land x z)) (Z.land y z).
Definition GG (j : nat) (x y z : Z) : Z :=
  if Nat.ltb j 16 then x (+) y (+) z
  else Z.lor (Z.land x y) (Z.land (2 ^ 32 - 1 - x) z).
(** 4.4 *)
Definition P0 (x : Z) : Z := x (+) (x <<< 9) (+) (x <<< 17).
Definition P1 (x : Z) : Z := x (+) (x <<< 15) (+) (x <<< 23).

(** 5.2: append a one bit, the least number of zero bits, and the bit length in 64 bits. *)
Definition zeros (len : nat) : nat := (64 - (len + 9) mod 64) mod 64.
Definition padded (m : bytes) : bytes :=
  m ++ [0x80] ++ repeat 0 (zeros (length m)) ++ z2be 8 (8 * Z.of_nat (length m)).

(** 5.3.2: message expansion. *)
Definition W0 (B : bytes) : list Z := map be2z (blocks 4 16 B).
Definition next_word (W : list Z) (j : nat) : Z :=
  P1 (nth (j - 16) W 0 (+) nth (j - 9) W 0 (+) (nth (j - 3) W 0 <<< 15))
  (+) (nth (j - 13) W 0 <<< 7) (+) nth (j - 6) W 0.
Definition Wd (B : bytes) : list Z :=
  fold_left (fun W j => W ++ [next_word W j]) (seq 16 52) (W0 B).
Definition Wd' (B : bytes) (j : nat) : Z := nth j (Wd B) 0 (+) nth (j + 4) (Wd B) 0.

(** 5.3.3: one round of the compression function, then the whole function. *)
Definition CF_round (Bi : bytes) (V : regs) (j : nat) : regs :=
  match V with
  | Regs A B C D E F G H =>
      let SS1 := ((A <<< 12) [+] E [+] (T j <<< Z.of_nat j)) <<< 7 in
      let SS2 := SS1 (+) (A <<< 12) in
      let TT1 := FF j A B C [+] D [+] SS2 [+] Wd' Bi j in
      let TT2 := GG j E F G [+] H [+] SS1 [+] nth j (Wd Bi) 0 in
      Regs TT1 A (B <<< 9) C (P0 TT2) E (F <<< 19) G
  end.
Definition xor8 (V V' : regs) : regs :=
  match V, V' with
  | Regs A B C D E F G H, Regs A' B' C' D' E' F' G' H' =>
      Regs (A (+) A') (B (+) B') (C (+) C') (D (+) D') (E (+) E') (F (+) F') (G (+) G') (H (+) H')
  end.
Definition CF (V : regs) (B : bytes) : regs := xor8 (fold_left (CF_round B) (seq 0 64) V) V.

(** 5.3.1 and 5.4: iterate over the 512-bit blocks; the result is 256 bits. *)
Definition hash (m : bytes) : bytes :=
  concat (map (z2be 4) (regs_list (fold_left CF (full_blocks 64 (padded m)) IV))).
End SM3Spec.
