(** Model of /repo/sm2_std.go:39-40, 542-978: the field of the SM2 curve as nine
    uint32 limbs of 29, 28, 29, ... bits, in Montgomery form with R = 2^257.

    A limb is an integer; unsigned arithmetic wraps by [u32] and [u64]. *)
Require Import ZArith List Bool.
Require Import Verif.Base.
Import ListNotations.
Open Scope Z_scope.

Definition u32 (x : Z) : Z := Z.land x 0xFFFFFFFF.
Definition u64 (x : Z) : Z := Z.land x 0xFFFFFFFFFFFFFFFF.
Definition m28 (x : Z) : Z := Z.land x 0xFFFFFFF.    (* x & bottom28Bits *)
Definition m29 (x : Z) : Z := Z.land x 0x1FFFFFFF.   (* x & bottom29Bits *)
Definition shl (x n : Z) : Z := u32 (Z.shiftl x n).
Definition shr (x n : Z) : Z := Z.shiftr x n.

(* sm2_std.go:51-52, 57: constants of initsm2_stdParam *)
Definition sm2_P : Z := 0xFFFFFFFEFFFFFFFFFFFFFFFFFFFFFFFFFFFFFFFF00000000FFFFFFFFFFFFFFFF.
Definition sm2_N : Z := 0xFFFFFFFEFFFFFFFFFFFFFFFFFFFFFFFF7203DF6B21C6052B53BBF40939D54123.
Definition sm2_RInverse : Z := 0x7ffffffd80000002fffffffe000000017ffffffe800000037ffffffc80000002.

(* sm2_std.go:39, sm2_stdFieldElement *)
Definition fe := list Z.

(* sm2_std.go:723-725 *)
Definition nonZeroToAllOnes (x : Z) : Z := u32 (shr (u32 (x - 1)) 31 - 1).

(* sm2_std.go:727-736, sm2_stdCarry, one row per carry *)
Definition sm2_carry : list (list Z) :=
  [[0; 0; 0; 0; 0; 0; 0; 0; 0];
   [0x2; 0; 0x1FFFFF00; 0x7FF; 0; 0; 0; 0x2000000; 0];
   [0x4; 0; 0x1FFFFE00; 0xFFF; 0; 0; 0; 0x4000000; 0];
   [0x6; 0; 0x1FFFFD00; 0x17FF; 0; 0; 0; 0x6000000; 0];
   [0x8; 0; 0x1FFFFC00; 0x1FFF; 0; 0; 0; 0x8000000; 0];
   [0xA; 0; 0x1FFFFB00; 0x27FF; 0; 0; 0; 0xA000000; 0];
   [0xC; 0; 0x1FFFFA00; 0x2FFF; 0; 0; 0; 0xC000000; 0];
   [0xE; 0; 0x1FFFF900; 0x37FF; 0; 0; 0; 0xE000000; 0]].

(* sm2_std.go:738-743; a carry above 7 would index out of range, which the
   bounds of the callers exclude *)
Definition sm2_reduce_carry (a : fe) (carry : Z) : fe :=
  let row := nth (Z.to_nat carry) sm2_carry [] in
  match a with
  | [a0; a1; a2; a3; a4; a5; a6; a7; a8] =>
      [u32 (a0 + nth 0 row 0); a1; u32 (a2 + nth 2 row 0); u32 (a3 + nth 3 row 0);
       a4; a5; a6; u32 (a7 + nth 7 row 0); a8]
  | _ => []
  end.

(* sm2_std.go:542-559: the carry chain of sm2_stdAdd; [ev] tells a 29-bit limb
   from a 28-bit one *)
Fixpoint sm2_add_chain (ev : bool) (a b : fe) (carry : Z) : fe * Z :=
  match a, b with
  | x :: a', y :: b' =>
      let c := u32 (u32 (x + y) + carry) in
      let '(r, k) := sm2_add_chain (negb ev) a' b' (if ev then shr c 29 else shr c 28) in
      ((if ev then m29 c else m28 c) :: r, k)
  | _, _ => ([], carry)
  end.
Definition sm2_add (a b : fe) : fe :=
  let '(r, k) := sm2_add_chain true a b 0 in sm2_reduce_carry r k.

(* sm2_std.go:540, sm2_stdZero31 *)
Definition sm2_zero31 : fe :=
  [0x7FFFFFF8; 0x3FFFFFFC; 0x800003FC; 0x3FFFDFFC; 0x7FFFFFFC; 0x3FFFFFFC; 0x7FFFFFFC; 0x37FFFFFC; 0x7FFFFFFC].

(* sm2_std.go:561-581 *)
Fixpoint sm2_sub_chain (ev : bool) (a b z : fe) (carry : Z) : fe * Z :=
  match a, b, z with
  | x :: a', y :: b', w :: z' =>
      let c := u32 (u32 (u32 (x - y) + w) + carry) in
      let '(r, k) := sm2_sub_chain (negb ev) a' b' z' (if ev then shr c 29 else shr c 28) in
      ((if ev then m29 c else m28 c) :: r, k)
  | _, _, _ => ([], carry)
  end.
Definition sm2_sub (a b : fe) : fe :=
  let '(r, k) := sm2_sub_chain true a b sm2_zero31 0 in sm2_reduce_carry r k.

(* uint32(b) and uint32(b >> 32) *)
Definition lo (b : Z) : Z := u32 b.
Definition hi (b : Z) : Z := u32 (shr b 32).

(* sm2_std.go:756-777: limbs 2 to 16 of tmp; bm2, bm1 are b[i-2], b[i-1] *)
Fixpoint sm2_split (ev : bool) (bm2 bm1 : Z) (b : list Z) (carry : Z) : list Z * (Z * Z * Z) :=
  match b with
  | [] => ([], (bm2, bm1, carry))
  | bi :: b' =>
      let t := if ev
        then u32 (shr (hi bm2) 25 + shr (lo bm1) 28 + m29 (shl (hi bm1) 4) + m29 (lo bi) + carry)
        else u32 (shr (hi bm2) 25 + shr (lo bm1) 29 + m28 (shl (hi bm1) 3) + m28 (lo bi) + carry) in
      let '(r, k) := sm2_split (negb ev) bm1 bi b' (if ev then shr t 29 else shr t 28) in
      ((if ev then m29 t else m28 t) :: r, k)
  end.

(* sm2_std.go:746-781: the 18 limbs of tmp *)
Definition sm2_tmp (b : list Z) : list Z :=
  match b with
  | b0 :: b1 :: b' =>
      let t1 := u32 (Z.lor (shr (lo b0) 29) (m28 (shl (hi b0) 3)) + m28 (lo b1)) in
      let '(r, (b15, b16, carry)) := sm2_split true b0 b1 b' (shr t1 28) in
      m29 (lo b0) :: m28 t1 :: r ++ [u32 (shr (hi b15) 25 + shr (lo b16) 29 + shl (hi b16) 3 + carry)]
  | _ => []
  end.

(* sm2_std.go:785-851: one elimination step at an even limb.  t0 is tmp[i]; the
   result is tmp[i+1 .. i+9] (tmp[i] becomes 0 and is never read again). *)
Definition sm2_red_even (t0 t1 t2 t3 t4 t5 t6 t7 t8 t9 : Z) : list Z :=
  let t1 := u32 (t1 + shr t0 29) in
  let x := m29 t0 in
  if 0 <? x then
    let xMask := nonZeroToAllOnes x in
    let t2 := u32 (t2 + m29 (shl x 7)) in
    let t3 := u32 (t3 + shr x 22) in
    let '(set4, t3) :=
      if t3 <? 0x10000000 then (1, u32 (u32 (t3 + Z.land 0x10000000 xMask) - m28 (shl x 10)))
      else (0, u32 (t3 - m28 (shl x 10))) in
    let '(set7, t4, t5, t6) :=
      if t4 <? 0x20000000 then
        let t4 := u32 (u32 (u32 (t4 + Z.land 0x20000000 xMask) - set4) - shr x 18) in
        if t5 <? 0x10000000 then
          let t5 := u32 (u32 (t5 + Z.land 0x10000000 xMask) - 1) in
          if t6 <? 0x20000000 then (1, t4, t5, u32 (u32 (t6 + Z.land 0x20000000 xMask) - 1))
          else (0, t4, t5, u32 (t6 - 1))
        else (0, t4, u32 (t5 - 1), t6)
      else (0, u32 (u32 (t4 - set4) - shr x 18), t5, t6) in
    if t7 <? 0x10000000 then
      let t7 := u32 (u32 (u32 (t7 + Z.land 0x10000000 xMask) - set7) - m28 (shl x 24)) in
      let t8 := u32 (t8 + m29 (shl x 28)) in
      if t8 <? 0x20000000 then
        [t1; t2; t3; t4; t5; t6; t7; u32 (u32 (u32 (t8 + Z.land 0x20000000 xMask) - 1) - shr x 4);
         u32 (t9 + Z.land (u32 (shr x 1 - 1)) xMask)]
      else
        [t1; t2; t3; t4; t5; t6; t7; u32 (u32 (t8 - 1) - shr x 4); u32 (t9 + Z.land (shr x 1) xMask)]
    else
      let t7 := u32 (u32 (t7 - set7) - m28 (shl x 24)) in
      let t8 := u32 (t8 + m29 (shl x 28)) in
      if t8 <? 0x20000000 then
        [t1; t2; t3; t4; t5; t6; t7; u32 (u32 (t8 + Z.land 0x20000000 xMask) - shr x 4);
         u32 (t9 + Z.land (u32 (shr x 1 - 1)) xMask)]
      else
        [t1; t2; t3; t4; t5; t6; t7; u32 (t8 - shr x 4); u32 (t9 + Z.land (shr x 1) xMask)]
  else [t1; t2; t3; t4; t5; t6; t7; t8; t9].

(* sm2_std.go:857-913: the step at an odd limb; t0 is tmp[i+1] *)
Definition sm2_red_odd (t0 t1 t2 t3 t4 t5 t6 t7 t8 t9 : Z) : list Z :=
  let t1 := u32 (t1 + shr t0 28) in
  let x := m28 t0 in
  if 0 <? x then
    let xMask := nonZeroToAllOnes x in
    let t2 := u32 (t2 + m28 (shl x 7)) in
    let t3 := u32 (t3 + shr x 21) in
    let '(set5, t3) :=
      if t3 <? 0x20000000 then (1, u32 (u32 (t3 + Z.land 0x20000000 xMask) - m29 (shl x 11)))
      else (0, u32 (t3 - m29 (shl x 11))) in
    let '(set8, t4, t5, t6) :=
      if t4 <? 0x10000000 then
        let t4 := u32 (u32 (u32 (t4 + Z.land 0x10000000 xMask) - set5) - shr x 18) in
        if t5 <? 0x20000000 then
          let t5 := u32 (u32 (t5 + Z.land 0x20000000 xMask) - 1) in
          if t6 <? 0x10000000 then (1, t4, t5, u32 (u32 (t6 + Z.land 0x10000000 xMask) - 1))
          else (0, t4, t5, u32 (t6 - 1))
        else (0, t4, u32 (t5 - 1), t6)
      else (0, u32 (u32 (t4 - set5) - shr x 18), t5, t6) in
    let '(set9, t7) :=
      if t7 <? 0x20000000
      then (1, u32 (u32 (u32 (t7 + Z.land 0x20000000 xMask) - set8) - m29 (shl x 25)))
      else (0, u32 (u32 (t7 - set8) - m29 (shl x 25))) in
    let '(t8, t9) :=
      if t8 <? 0x10000000
      then (u32 (u32 (u32 (t8 + Z.land 0x10000000 xMask) - set9) - shr x 4),
            u32 (t9 + Z.land (u32 (x - 1)) xMask))
      else (u32 (u32 (t8 - set9) - shr x 4), u32 (t9 + Z.land x xMask)) in
    [t1; t2; t3; t4; t5; t6; t7; t8; t9]
  else [t1; t2; t3; t4; t5; t6; t7; t8; t9].

(* sm2_std.go:783-915: the loop over limbs 0 to 8; [tmp] is the part of the
   array from the current limb on *)
Fixpoint sm2_red (steps : nat) (ev : bool) (tmp : list Z) : list Z :=
  match steps with
  | O => tmp
  | S n =>
      match tmp with
      | t0 :: t1 :: t2 :: t3 :: t4 :: t5 :: t6 :: t7 :: t8 :: t9 :: rest =>
          sm2_red n (negb ev)
            ((if ev then sm2_red_even else sm2_red_odd) t0 t1 t2 t3 t4 t5 t6 t7 t8 t9 ++ rest)
      | _ => []
      end
  end.

(* sm2_std.go:917-933: limbs 9 to 17 shifted into place; [tmp] is tmp[i+9 ..] *)
Fixpoint sm2_pack (ev : bool) (tmp : list Z) (carry : Z) : fe * Z :=
  match tmp with
  | [] => ([], carry)
  | [t] => let c := u32 (t + carry) in ([m29 c], shr c 29)
  | t :: ((t' :: _) as rest) =>
      let c := if ev then u32 (u32 (t + carry) + m29 (shl t' 28)) else u32 (shr t 1 + carry) in
      let '(r, k) := sm2_pack (negb ev) rest (if ev then shr c 29 else shr c 28) in
      ((if ev then m29 c else m28 c) :: r, k)
  end.

(* sm2_std.go:745-934, sm2_stdReduceDegree *)
Definition sm2_reduce_degree (b : list Z) : fe :=
  let '(r, k) := sm2_pack true (sm2_red 9 true (sm2_tmp b)) 0 in sm2_reduce_carry r k.

(* sm2_std.go:583-669; generated by tools/sm2mul.py *)
Definition sm2_products (a b : fe) : list Z :=
  match a, b with
  | [a0; a1; a2; a3; a4; a5; a6; a7; a8], [b0; b1; b2; b3; b4; b5; b6; b7; b8] =>
      [u64 (a0 * b0);
       u64 (a0 * b1 + a1 * b0);
       u64 (a0 * b2 + a1 * (b1 * 2) + a2 * b0);
       u64 (a0 * b3 + a1 * b2 + a2 * b1 + a3 * b0);
       u64 (a0 * b4 + a1 * (b3 * 2) + a2 * b2 + a3 * (b1 * 2) + a4 * b0);
       u64 (a0 * b5 + a1 * b4 + a2 * b3 + a3 * b2 + a4 * b1 + a5 * b0);
       u64 (a0 * b6 + a1 * (b5 * 2) + a2 * b4 + a3 * (b3 * 2) + a4 * b2 + a5 * (b1 * 2) + a6 * b0);
       u64 (a0 * b7 + a1 * b6 + a2 * b5 + a3 * b4 + a4 * b3 + a5 * b2 + a6 * b1 + a7 * b0);
       u64 (a0 * b8 + a1 * (b7 * 2) + a2 * b6 + a3 * (b5 * 2) + a4 * b4 + a5 * (b3 * 2) + a6 * b2 + a7 * (b1 * 2) + a8 * b0);
       u64 (a1 * b8 + a2 * b7 + a3 * b6 + a4 * b5 + a5 * b4 + a6 * b3 + a7 * b2 + a8 * b1);
       u64 (a2 * b8 + a3 * (b7 * 2) + a4 * b6 + a5 * (b5 * 2) + a6 * b4 + a7 * (b3 * 2) + a8 * b2);
       u64 (a3 * b8 + a4 * b7 + a5 * b6 + a6 * b5 + a7 * b4 + a8 * b3);
       u64 (a4 * b8 + a5 * (b7 * 2) + a6 * b6 + a7 * (b5 * 2) + a8 * b4);
       u64 (a5 * b8 + a6 * b7 + a7 * b6 + a8 * b5);
       u64 (a6 * b8 + a7 * (b7 * 2) + a8 * b6);
       u64 (a7 * b8 + a8 * b7);
       u64 (a8 * b8)]
  | _, _ => []
  end.

Definition sm2_mul (a b : fe) : fe := sm2_reduce_degree (sm2_products a b).

(* sm2_std.go:671-721; generated by tools/sm2mul.py *)
Definition sm2_squares (a : fe) : list Z :=
  match a with
  | [a0; a1; a2; a3; a4; a5; a6; a7; a8] =>
      [u64 (a0 * a0);
       u64 (a0 * (a1 * 2));
       u64 (a0 * (a2 * 2) + a1 * (a1 * 2));
       u64 (a0 * (a3 * 2) + a1 * (a2 * 2));
       u64 (a0 * (a4 * 2) + a1 * (a3 * 4) + a2 * a2);
       u64 (a0 * (a5 * 2) + a1 * (a4 * 2) + a2 * (a3 * 2));
       u64 (a0 * (a6 * 2) + a1 * (a5 * 4) + a2 * (a4 * 2) + a3 * (a3 * 2));
       u64 (a0 * (a7 * 2) + a1 * (a6 * 2) + a2 * (a5 * 2) + a3 * (a4 * 2));
       u64 (a0 * (a8 * 2) + a1 * (a7 * 4) + a2 * (a6 * 2) + a3 * (a5 * 4) + a4 * a4);
       u64 (a1 * (a8 * 2) + a2 * (a7 * 2) + a3 * (a6 * 2) + a4 * (a5 * 2));
       u64 (a2 * (a8 * 2) + a3 * (a7 * 4) + a4 * (a6 * 2) + a5 * (a5 * 2));
       u64 (a3 * (a8 * 2) + a4 * (a7 * 2) + a5 * (a6 * 2));
       u64 (a4 * (a8 * 2) + a5 * (a7 * 4) + a6 * a6);
       u64 (a5 * (a8 * 2) + a6 * (a7 * 2));
       u64 (a6 * (a8 * 2) + a7 * (a7 * 2));
       u64 (a7 * (a8 * 2));
       u64 (a8 * a8)]
  | _ => []
  end.

Definition sm2_square (a : fe) : fe := sm2_reduce_degree (sm2_squares a).

(* sm2_std.go:940-962, sm2_stdFromBig *)
Fixpoint sm2_limbs (n : nat) (ev : bool) (x : Z) : fe :=
  match n with
  | O => []
  | S n' => (if ev then m29 (u32 x) else m28 (u32 x)) :: sm2_limbs n' (negb ev) (if ev then shr x 29 else shr x 28)
  end.
Definition sm2_from_big (a : Z) : fe := sm2_limbs 9 true ((a * 2 ^ 257) mod sm2_P).

(* sm2_std.go:964-978, sm2_stdToBig: the loop of shifts and additions *)
Fixpoint sm2_horner (ev : bool) (a : fe) : Z :=
  match a with
  | [] => 0
  | x :: a' => x + sm2_horner (negb ev) a' * (if ev then 2 ^ 29 else 2 ^ 28)
  end.
Definition sm2_to_big (a : fe) : Z := (sm2_horner true a * sm2_RInverse) mod sm2_P.

(** Not part of the program: observations of the reduction used to say when it
    goes wrong. *)

(** An even step underflows when its digit is 1 and limb i+9 has nothing to
    borrow from. *)
Definition even_safe (t0 t8 t9 : Z) : bool :=
  negb ((m29 t0 =? 1) && (t8 + 0x10000000 <? 0x20000000) && (t9 =? 0)).

(** No underflow in the elimination loop. *)
Fixpoint sm2_red_safe (steps : nat) (ev : bool) (tmp : list Z) : bool :=
  match steps with
  | O => true
  | S n =>
      match tmp with
      | t0 :: t1 :: t2 :: t3 :: t4 :: t5 :: t6 :: t7 :: t8 :: t9 :: rest =>
          (if ev then even_safe t0 t8 t9 else true) &&
          sm2_red_safe n (negb ev)
            ((if ev then sm2_red_even else sm2_red_odd) t0 t1 t2 t3 t4 t5 t6 t7 t8 t9 ++ rest)
      | _ => false
      end
  end.

(** No elimination step underflows. *)
Definition mul_safe (a b : fe) : bool := sm2_red_safe 9 true (sm2_tmp (sm2_products a b)).
Definition square_safe (a : fe) : bool := sm2_red_safe 9 true (sm2_tmp (sm2_squares a)).
