(** Model of sm3/sm3.go.  Words are integers below 2^32; the digest array is
    the register record; the unprocessed tail is the byte list [s_msg]. *)
From Coq Require Import ZArith List.
From Verif Require Import Base Words.
Import ListNotations.
Open Scope Z_scope.

(** sm3/sm3.go:22-26 *)
Record sm3 := MkSM3 { s_dig : regs; s_len : Z; s_msg : bytes }.

(** sm3/sm3.go:28-40 *)
Definition leftRotate (x i : Z) : Z :=
  Z.lor (u32 (Z.shiftl x (i mod 32))) (Z.shiftr x (32 - i mod 32)).
Definition ff0 (x y z : Z) : Z := Z.lxor (Z.lxor x y) z.
Definition ff1 (x y z : Z) : Z := Z.lor (Z.lor (Z.land x y) (Z.land x z)) (Z.land y z).
Definition gg0 (x y z : Z) : Z := Z.lxor (Z.lxor x y) z.
Definition gg1 (x y z : Z) : Z := Z.lor (Z.land x y) (Z.land (not32 x) z).
Definition p0 (x : Z) : Z := Z.lxor (Z.lxor x (leftRotate x 9)) (leftRotate x 17).
Definition p1 (x : Z) : Z := Z.lxor (Z.lxor x (leftRotate x 15)) (leftRotate x 23).

(** sm3/sm3.go:42-66.  The loop appends zero bytes until the length is 56 mod
    64; [fuel] = 64 always suffices.  The panic branch is unreachable
    (proved: [sm3_pad_mult]) and is left out. *)
Fixpoint pad_zeros (fuel : nat) (msg : bytes) : bytes :=
  match fuel with
  | O => msg
  | S f => if Nat.eqb (length msg mod 64) 56 then msg else pad_zeros f (msg ++ [0])
  end.
Definition len_byte (l sh : Z) : Z := Z.land (Z.shiftr l sh) 255.
Definition sm3_pad (s : sm3) : bytes :=
  let msg := pad_zeros 64 (s_msg s ++ [0x80]) in
  let l := s_len s in
  msg ++ [len_byte l 56; len_byte l 48; len_byte l 40; len_byte l 32;
          len_byte l 24; len_byte l 16; len_byte l 8; len_byte l 0].

(** sm3/sm3.go:73-80: the array w; entries are appended as they are computed
    (w[i] is only read after it has been written). *)
Definition w_init (msg : bytes) : list Z :=
  map (fun i => be2z (firstn 4 (skipn (4 * i) msg))) (seq 0 16).
Definition w_next (w : list Z) (i : nat) : list Z :=
  w ++ [Z.lxor (Z.lxor (p1 (Z.lxor (Z.lxor (nth (i - 16) w 0) (nth (i - 9) w 0))
                                   (leftRotate (nth (i - 3) w 0) 15)))
                       (leftRotate (nth (i - 13) w 0) 7))
               (nth (i - 6) w 0)].
Definition w_full (msg : bytes) : list Z := fold_left w_next (seq 16 52) (w_init msg).
(** sm3/sm3.go:81-83 *)
Definition w1_full (w : list Z) : list Z :=
  map (fun i => Z.lxor (nth i w 0) (nth (i + 4) w 0)) (seq 0 64).

(** sm3/sm3.go:85-98 and 99-112: the two round loops differ in the constant
    and in ff/gg. *)
Definition sm3_round (t : Z) (ff gg : Z -> Z -> Z -> Z) (w w1 : list Z) (r : regs) (i : nat) : regs :=
  match r with
  | Regs A B C D E F G H =>
      let SS1 := leftRotate (u32 (u32 (leftRotate A 12 + E) + leftRotate t (Z.of_nat i))) 7 in
      let SS2 := Z.lxor SS1 (leftRotate A 12) in
      let TT1 := u32 (u32 (u32 (ff A B C + D) + SS2) + nth i w1 0) in
      let TT2 := u32 (u32 (u32 (gg E F G + H) + SS1) + nth i w 0) in
      Regs TT1 A (leftRotate B 9) C (p0 TT2) E (leftRotate F 19) G
  end.

(** sm3/sm3.go:73-121: the body of the block loop. *)
Definition sm3_block (d : regs) (msg : bytes) : regs :=
  let w := w_full msg in
  let w1 := w1_full w in
  let r1 := fold_left (sm3_round 0x79cc4519 ff0 gg0 w w1) (seq 0 16) d in
  let r2 := fold_left (sm3_round 0x7a879d8a ff1 gg1 w w1) (seq 16 48) r1 in
  match d, r2 with
  | Regs a b c d e f g h, Regs A B C D E F G H =>
      Regs (Z.lxor a A) (Z.lxor b B) (Z.lxor c C) (Z.lxor d D)
           (Z.lxor e E) (Z.lxor f F) (Z.lxor g G) (Z.lxor h H)
  end.

(** sm3/sm3.go:68-124: [for len(msg) >= 64]; [fuel] bounds the iterations and
    is always given as the length of msg. *)
Fixpoint sm3_update (fuel : nat) (d : regs) (msg : bytes) : regs :=
  match fuel with
  | O => d
  | S f => if Nat.leb 64 (length msg) then sm3_update f (sm3_block d msg) (skipn 64 msg) else d
  end.

(** sm3/sm3.go:137-150 *)
Definition sm3_new : sm3 :=
  MkSM3 (Regs 0x7380166f 0x4914b2b9 0x172442d7 0xda8a0600
              0xa96f30bc 0x163138aa 0xe38dee4d 0xb0fb0e4e) 0 [].

(** sm3/sm3.go:152-163.  len(p) is an int, so p has fewer than 2^63 bytes;
    len*8 is int arithmetic converted to uint64, i.e. reduced mod 2^64. *)
Definition sm3_write (s : sm3) (p : bytes) : sm3 :=
  let msg := s_msg s ++ p in
  let nblocks := (length msg / 64)%nat in
  MkSM3 (sm3_update (length msg) (s_dig s) msg)
        (u64 (s_len s + u64 (8 * Z.of_nat (length p))))
        (skipn (nblocks * 64) msg).

(** sm3/sm3.go:165-184.  [in] is hashed as well, and only the 32 bytes of the
    digest are returned.  The state keeps s_msg (pad works on a copy of the
    slice header) but its digest registers have absorbed the padding. *)
Definition sm3_sum (s : sm3) (inp : bytes) : sm3 * bytes :=
  let s1 := sm3_write s inp in
  let msg := sm3_pad s1 in
  let d := sm3_update (length msg) (s_dig s1) msg in
  (MkSM3 d (s_len s1) (s_msg s1), concat (map (z2be 4) (regs_list d))).

(** sm3/sm3.go:186-192 *)
Definition Sm3Sum (data : bytes) : bytes := snd (sm3_sum (sm3_write sm3_new data) []).
