(** Package sha3 on amd64, 386 and ppc64le: the input and output of the sponge through
    unsafe pointers (/repo/sha3/xor_unaligned.go), and the portable output loop. All three
    machines are little-endian. *)
From Coq Require Import ZArith List Bool.
From Verif Require Import Base Words ModelBlake ModelSha3.
Import ListNotations.
Open Scope Z_scope.

(** The memory from &buf[0] on: byte i of it. Bytes at and after len(buf) belong to
    whatever lies behind the slice. *)
Definition memory := nat -> Z.
(** xor_unaligned.go:13: bw[i], a 64-bit load *)
Definition bw (m : memory) (i : nat) : Z := le2z (map m (seq (8 * i) 8)).
(** d.a[i] ^= bw[i] *)
Definition xor_word (m : memory) (a : list Z) (i : nat) : list Z := upd a i (Z.lxor (vget a i) (bw m i)).
(** xor_unaligned.go:12-45; [n] is len(buf). [None] is the panic of &buf[0] on an empty slice. *)
Definition xorInUnaligned (m : memory) (n : nat) (a : list Z) : option (list Z) :=
  if Nat.eqb n 0 then None
  else
    let a := if Nat.leb 72 n then fold_left (xor_word m) [0; 1; 2; 3; 4; 5; 6; 7; 8]%nat a else a in
    let a := if Nat.leb 104 n then fold_left (xor_word m) [9; 10; 11; 12]%nat a else a in
    let a := if Nat.leb 136 n then fold_left (xor_word m) [13; 14; 15; 16]%nat a else a in
    let a := if Nat.leb 144 n then fold_left (xor_word m) [17]%nat a else a in
    Some (if Nat.leb 168 n then fold_left (xor_word m) [18; 19; 20]%nat a else a).
(** xor_unaligned.go:47-50: ab is the first maxRate = 168 bytes of the 200 of d.a; copy moves
    the smaller of the two lengths and leaves the rest of buf. *)
Definition copyOutUnaligned (a : list Z) (buf : bytes) : bytes :=
  let ab := firstn 168 (concat (map (z2le 8) a)) in
  let k := Nat.min (length buf) (length ab) in
  firstn k ab ++ skipn k buf.
(** xor_generic.go:23-28: as long as 8 bytes are left; [None] is the panic of d.a[i] for
    i = 25. Each turn uses 8 bytes: [fuel] is the length of b. *)
Fixpoint copyOut_loop (fuel i : nat) (a : list Z) (b : bytes) : option bytes :=
  match fuel with
  | O => Some b
  | S f =>
      if Nat.leb 8 (length b) then
        match nth_error a i with
        | Some x => option_map (app (z2le 8 x)) (copyOut_loop f (S i) a (skipn 8 b))
        | None => None
        end
      else Some b
  end.
Definition copyOutGeneric (a : list Z) (b : bytes) : option bytes := copyOut_loop (length b) 0 a b.
