(** Package sha3 (/repo/sha3): the Keccak permutation, the sponge, the SHA-3 and
    Keccak hashes and SHAKE. *)
From Coq Require Import ZArith List Bool.
From Verif Require Import Base Words ModelBlake ModelSha3Code.
Import ListNotations.
Open Scope Z_scope.

(** Go's <<, >>, | on uint64, as written: x<<k | x>>(64-k). *)
Definition rol_code (x : Z) (k : nat) : Z :=
  Z.lor (u64 (Z.shiftl x (Z.of_nat k))) (Z.shiftr x (64 - Z.of_nat k)).

(** One assignment; [i] is the loop variable.  &^ is [Z.ldiff]. *)
Definition kexec (i : nat) (v : list Z) (c : kinstr) : list Z :=
  match c with
  | Xor5 x a b c d e =>
      upd v x (Z.lxor (Z.lxor (Z.lxor (Z.lxor (vget v a) (vget v b)) (vget v c)) (vget v d)) (vget v e))
  | XorRol1 x a b => upd v x (Z.lxor (vget v a) (rol_code (vget v b) 1))
  | Xor2 x a b => upd v x (Z.lxor (vget v a) (vget v b))
  | Rol x a k => upd v x (rol_code (vget v a) k)
  | Chi x a b c => upd v x (Z.lxor (vget v a) (Z.ldiff (vget v b) (vget v c)))
  | ChiRc x a b c k =>
      upd v x (Z.lxor (Z.lxor (vget v a) (Z.ldiff (vget v b) (vget v c))) (nth (i + k) keccak_rc 0))
  end.
Definition krun (i : nat) (code : list kinstr) (v : list Z) : list Z := fold_left (kexec i) code v.

(** keccakf.go:39-412: the local variables start at 0; six turns of the loop.
    On amd64 the package uses keccakf_amd64.s instead, modelled in ModelKeccakX.v. *)
Definition keccakF1600 (a : list Z) : list Z :=
  firstn 25 (fold_left (fun v i => krun i keccak_code v) [0; 4; 8; 12; 16; 20]%nat (a ++ repeat 0 11)).

(** sha3.go:23-49.  [k_buf] is d.buf and [k_off] the index in d.storage at which
    it starts; nil and empty are the same. *)
Record sponge := MkSponge {
  k_a : list Z;
  k_buf : bytes;
  k_rate : nat;
  k_ds : Z;
  k_out : nat;        (* outputLen *)
  k_sq : bool;        (* state == spongeSqueezing *)
  k_off : nat
}.

(** xor_generic.go:12-20, xor_unaligned.go:12-44 (on the five rates in use, on a
    little-endian machine, both do the same). *)
Definition xor_in (a : list Z) (b : bytes) : list Z :=
  fold_left (fun a i => upd a i (Z.lxor (vget a i) (le2z (firstn 8 (skipn (8 * i) b))))) (seq 0 (length b / 8)) a.
(** xor_generic.go:23-28, xor_unaligned.go:46-49: the first [n] bytes of the state. *)
Definition copy_out (a : list Z) (n : nat) : bytes := firstn n (concat (map (z2le 8) a)).

(** sha3.go:84-101 *)
Definition permute (d : sponge) : sponge :=
  if k_sq d then
    let a := keccakF1600 (k_a d) in
    MkSponge a (copy_out a (k_rate d)) (k_rate d) (k_ds d) (k_out d) true 0
  else
    MkSponge (keccakF1600 (xor_in (k_a d) (k_buf d))) [] (k_rate d) (k_ds d) (k_out d) false 0.

(** sha3.go:105-129 *)
Definition pad_and_permute (d : sponge) : sponge :=
  let b := k_buf d ++ [k_ds d] in
  let b := b ++ repeat 0 (k_rate d - length b) in
  let b := upd b (k_rate d - 1) (Z.lxor (vget b (k_rate d - 1)) 0x80) in
  let d := permute (MkSponge (k_a d) b (k_rate d) (k_ds d) (k_out d) false 0) in
  MkSponge (k_a d) (copy_out (k_a d) (k_rate d)) (k_rate d) (k_ds d) (k_out d) true 0.

(** sha3.go:133-165.  [None] is the panic.  The loop ends because every turn
    consumes a byte: [fuel] is the length of p. *)
Fixpoint kwrite_loop (fuel : nat) (d : sponge) (p : bytes) : sponge :=
  match fuel with
  | O => d
  | S f =>
      if Nat.eqb (length p) 0 then d
      else if Nat.eqb (length (k_buf d)) 0 && Nat.leb (k_rate d) (length p) then
        kwrite_loop f (MkSponge (keccakF1600 (xor_in (k_a d) (firstn (k_rate d) p))) (k_buf d) (k_rate d) (k_ds d) (k_out d) false 0)
          (skipn (k_rate d) p)
      else
        let todo := Nat.min (k_rate d - length (k_buf d)) (length p) in
        let d := MkSponge (k_a d) (k_buf d ++ firstn todo p) (k_rate d) (k_ds d) (k_out d) false 0 in
        let p := skipn todo p in
        kwrite_loop f (if Nat.eqb (length (k_buf d)) (k_rate d) then permute d else d) p
  end.
Definition kwrite (d : sponge) (p : bytes) : option sponge :=
  if k_sq d then None else Some (kwrite_loop (length p) d p).

(** sha3.go:168-190: read [n] bytes. *)
Fixpoint kread_loop (fuel : nat) (d : sponge) (n : nat) : sponge * bytes :=
  match fuel with
  | O => (d, [])
  | S f =>
      if Nat.eqb n 0 then (d, [])
      else
        let c := Nat.min n (length (k_buf d)) in
        let out := firstn c (k_buf d) in
        let d := MkSponge (k_a d) (skipn c (k_buf d)) (k_rate d) (k_ds d) (k_out d) true (k_off d + c) in
        let d := if Nat.eqb (length (k_buf d)) 0 then permute d else d in
        let '(d, o) := kread_loop f d (n - c) in (d, out ++ o)
  end.
Definition kread (d : sponge) (n : nat) : sponge * bytes :=
  kread_loop n (if k_sq d then d else pad_and_permute d) n.

(** sha3.go:70-80 (Clone in shake.go:34-36).  When squeezing, the slice starts at
    rate - cap(buf), where cap(buf) is what remains of the 168 bytes of storage;
    [None] is the panic when that is negative.  Storage then holds the current
    block of output. *)
Definition kclone (d : sponge) : option sponge :=
  if k_sq d then
    let lo := Z.of_nat (k_rate d) - (168 - Z.of_nat (k_off d)) in
    if lo <? 0 then None
    else Some (MkSponge (k_a d) (skipn (Z.to_nat lo) (copy_out (k_a d) (k_rate d))) (k_rate d) (k_ds d) (k_out d) true (Z.to_nat lo))
  else Some d.

(** sha3.go:193-203 *)
Definition ksum (d : sponge) (inp : bytes) : option bytes :=
  match kclone d with
  | Some dup => Some (inp ++ snd (kread dup (k_out dup)))
  | None => None
  end.

(** sha3.go:60-67 *)
Definition kreset (d : sponge) : sponge := MkSponge (repeat 0 25) [] (k_rate d) (k_ds d) (k_out d) false 0.

Definition knew (rate outlen : nat) (ds : Z) : sponge := MkSponge (repeat 0 25) [] rate ds outlen false 0.
(* hashes.go:7-17, shake.go:41, 46 *)
Definition NewKeccak256 := knew 136 32 0x01.
Definition NewKeccak512 := knew 72 64 0x01.
Definition New224 := knew 144 28 0x06.
Definition New256 := knew 136 32 0x06.
Definition New384 := knew 104 48 0x06.
Definition New512 := knew 72 64 0x06.
Definition NewShake128 := knew 168 0 0x1f.
Definition NewShake256 := knew 136 0 0x1f.

(** hashes.go:19-45: Sum224, Sum256, Sum384, Sum512 pass digest[:0] to Sum, which
    appends to it: the capacity of the array is the output size, so append writes
    into the returned array. *)
Definition ksum_of (d : sponge) (data : bytes) : option bytes :=
  match kwrite d data with
  | Some d => ksum d []
  | None => None
  end.
