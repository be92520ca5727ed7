(** The meaning of the six instructions of sha3/keccakf_amd64.s (Intel manual,
    vol. 2; the flags are never read) and the routine keccakF1600 of the amd64 build
    (keccakf_amd64.go:13).  No proofs in this file. *)
From Coq Require Import ZArith List.
From Verif Require Import Base Words ModelBlake ModelSha3 ModelKeccakAsm.
Import ListNotations.
Open Scope Z_scope.

(** Position of a place in the list holding the machine: 14 registers, the 25 words
    of the caller's state, the 25 words of the frame *)
Definition kix (l : kloc) : nat :=
  match l with
  | AX => 0 | BX => 1 | CX => 2 | DX => 3 | SI => 4 | BP => 5 | R8 => 6 | R9 => 7
  | R10 => 8 | R11 => 9 | R12 => 10 | R13 => 11 | R14 => 12 | R15 => 13
  | St n => 14 + n | Sk n => 39 + n
  end%nat.
Definition kget (m : list Z) (s : ksrc) : Z := match s with W l => vget m (kix l) | K z => z end.
Definition kstep (m : list Z) (i : kins) : list Z :=
  match i with
  | MOVQ s d => upd m (kix d) (kget m s)
  | XORQ s d => upd m (kix d) (Z.lxor (vget m (kix d)) (kget m s))
  | ANDQ s d => upd m (kix d) (Z.land (vget m (kix d)) (kget m s))
  | ORQ s d => upd m (kix d) (Z.lor (vget m (kix d)) (kget m s))
  | ROLQ k d => upd m (kix d) (rol_code (vget m (kix d)) k)
  | NOTQ d => upd m (kix d) (2 ^ 64 - 1 - vget m (kix d))
  end.
Definition kcall (code : list kins) (m : list Z) : list Z := fold_left kstep code m.
(** The routine on the state [a]; [regs] and [frame] are what registers and stack
    held before.  The result is the caller's state afterwards. *)
Definition keccak_asm : list kins := keccak_enter ++ concat keccak_rounds ++ keccak_leave.
Definition keccakF1600_amd64 (regs frame a : list Z) : list Z :=
  firstn 25 (skipn 14 (kcall keccak_asm (regs ++ a ++ frame))).
(** the words of the frame an instruction names *)
Definition loc_slot (l : kloc) : list nat := match l with Sk n => [n] | _ => [] end.
Definition src_slot (s : ksrc) : list nat := match s with W l => loc_slot l | K _ => [] end.
Definition kins_slots (i : kins) : list nat :=
  match i with
  | MOVQ s d | XORQ s d | ANDQ s d | ORQ s d => src_slot s ++ loc_slot d
  | ROLQ _ d | NOTQ d => loc_slot d
  end.
Definition kins_state (i : kins) : list nat :=
  let l x := match x with St n => [n] | _ => [] end in
  let s x := match x with W y => l y | K _ => [] end in
  match i with
  | MOVQ a d | XORQ a d | ANDQ a d | ORQ a d => s a ++ l d
  | ROLQ _ d | NOTQ d => l d
  end.
