(** Keccak-f[1600], SHA-3 and SHAKE, written from FIPS 202; Keccak-256 and -512
    are the sponge of the original submission (padding 10*1 without suffix). *)
From Coq Require Import ZArith List Bool.
From Verif Require Import Base Words.
Import ListNotations.
Open Scope Z_scope.

Module Sha3Spec.
(** A state is the list of its 25 lanes; lane (x, y) stands at index 5y + x, and
    bit z of a lane is bit z of the integer (FIPS 202, 3.1). *)
Definition lane (A : list Z) (x y : nat) : Z := nth (5 * (y mod 5) + x mod 5) A 0.
Definition state_of (f : nat -> nat -> Z) : list Z :=
  concat (map (fun y => map (fun x => f x y) (seq 0 5)) (seq 0 5)).
Definition rot (w : Z) (k : nat) : Z := (w * 2 ^ Z.of_nat k) mod 2 ^ 64 + w / 2 ^ (64 - Z.of_nat k).
Infix "(+)" := Z.lxor (at level 51, left associativity).

(** 3.2.1 *)
Definition col (A : list Z) (x : nat) : Z :=
  lane A x 0 (+) lane A x 1 (+) lane A x 2 (+) lane A x 3 (+) lane A x 4.
Definition theta (A : list Z) : list Z :=
  state_of (fun x y => lane A x y (+) (col A (x + 4) (+) rot (col A (x + 1)) 1)).
(** 3.2.2: the offset of lane (x, y) is (t+1)(t+2)/2 mod 64 where (x, y) is the
    t-th position of the walk from (1, 0) by (x, y) -> (y, 2x + 3y). *)
Fixpoint walk (t : nat) : nat * nat :=
  match t with
  | O => (1, 0)
  | S t => let (x, y) := walk t in (y, (2 * x + 3 * y) mod 5)
  end%nat.
Definition offset (x y : nat) : nat :=
  match find (fun t => let (x', y') := walk t in (Nat.eqb x x' && Nat.eqb y y')%bool) (seq 0 24) with
  | Some t => ((t + 1) * (t + 2) / 2) mod 64
  | None => 0
  end%nat.
Definition rho (A : list Z) : list Z :=
  state_of (fun x y => if (Nat.eqb x 0 && Nat.eqb y 0)%bool then lane A x y else rot (lane A x y) (offset x y)).
(** 3.2.3 *)
Definition pi (A : list Z) : list Z := state_of (fun x y => lane A (x + 3 * y) x).
(** 3.2.4 *)
Definition chi (A : list Z) : list Z :=
  state_of (fun x y => lane A x y (+) Z.land (2 ^ 64 - 1 - lane A (x + 1) y) (lane A (x + 2) y)).
(** 3.2.5: rc(t) is the output of a linear feedback shift register, and bit
    2^j - 1 of the round constant of round i is rc(j + 7i). *)
Fixpoint lfsr (t : nat) : Z :=
  match t with
  | O => 1
  | S t => let r := 2 * lfsr t in if 256 <=? r then (r - 256) (+) 0x71 else r
  end.
Definition rc (t : nat) : Z := lfsr (t mod 255) mod 2.
Definition RC (i : nat) : Z := fold_left (fun s j => s + rc (j + 7 * i) * 2 ^ (2 ^ Z.of_nat j - 1)) (seq 0 7) 0.
Definition iota (i : nat) (A : list Z) : list Z :=
  state_of (fun x y => if (Nat.eqb x 0 && Nat.eqb y 0)%bool then lane A x y (+) RC i else lane A x y).
(** 3.3 *)
Definition Rnd (A : list Z) (i : nat) : list Z := iota i (chi (pi (rho (theta A)))).
Definition keccak_f (A : list Z) : list Z := fold_left Rnd (seq 0 24) A.

(** 4 and B.2 (byte-aligned messages): pad with the suffix byte (the suffix bits
    and the first bit of the padding), zeros, and the last bit; the last byte may
    be the suffix byte. *)
Definition pad (rate : nat) (suffix : Z) (len : nat) : bytes :=
  let q := (rate - len mod rate)%nat in
  if Nat.eqb q 1 then [suffix + 0x80] else [suffix] ++ repeat 0 (q - 2) ++ [0x80].
Definition lanes_of (b : bytes) : list Z := map le2z (blocks 8 (length b / 8) b).
Fixpoint xor_lanes (A B : list Z) : list Z :=
  match A, B with
  | a :: A, b :: B => (a (+) b) :: xor_lanes A B
  | _, _ => A
  end.
Definition absorb (A : list Z) (b : bytes) : list Z := keccak_f (xor_lanes A (lanes_of b)).
Definition bytes_of (A : list Z) : bytes := concat (map (z2le 8) A).
Fixpoint squeeze (rate n : nat) (A : list Z) : bytes :=
  match n with
  | O => []
  | S n => firstn rate (bytes_of A) ++ squeeze rate n (keccak_f A)
  end.
(** The first [d] bytes of the sponge's output on m. *)
Definition sponge (rate : nat) (suffix : Z) (m : bytes) (d : nat) : bytes :=
  firstn d (squeeze rate (d / rate + 1)
    (fold_left absorb (full_blocks rate (m ++ pad rate suffix (length m))) (repeat 0 25))).

Definition sha3_224 m := sponge 144 0x06 m 28.
Definition sha3_256 m := sponge 136 0x06 m 32.
Definition sha3_384 m := sponge 104 0x06 m 48.
Definition sha3_512 m := sponge 72 0x06 m 64.
Definition shake128 m d := sponge 168 0x1f m d.
Definition shake256 m d := sponge 136 0x1f m d.
Definition keccak_256 m := sponge 136 0x01 m 32.
Definition keccak_512 m := sponge 72 0x01 m 64.
End Sha3Spec.
