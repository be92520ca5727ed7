(** * bls12_381: field, extension field, groups G1 and G2, hashing, signatures.

    Generated by tools/mkblsg.py from tools/ModelBls.in (the numeric tables are
    copied from the Go source).

    The code is modelled over a record [fbuild] of the field routines, because
    the repository has three implementations of them (arithmetic_fallback.go,
    and arithmetic_x86.s with and without ADX).  g1.go over fe and g2.go over fe2
    are the same program text, so both are one section over the record [cfield]
    of the operations of a coordinate field.

    Go passes pointers to temporaries; the functions below return values.  All
    calls in the code that pass the same element as argument and as result read
    the arguments before writing the result (checked for every function
    modelled). *)
From Coq Require Import ZArith List Bool.
From Verif Require Import Base ModelECDSA ModelApi ModelBlsF ModelX86 ModelBlsAsm.
Import ListNotations.
Local Open Scope Z_scope.

Definition fe := list Z.          (* field_element.go:11: [6]uint64 *)
Definition fe2 := (fe * fe)%type.  (* field_element.go:12: [2]fe *)

(** The arithmetic of the base field. *)
Record fbuild := mkF {
  f_add : fe -> fe -> fe; f_sub : fe -> fe -> fe; f_mul : fe -> fe -> fe;
  f_double : fe -> fe; f_neg : fe -> fe; f_square : fe -> fe;
  f_ladd : fe -> fe -> fe; f_ldouble : fe -> fe; f_lsub : fe -> fe -> fe }.

(** arithmetic_fallback.go: builds without amd64, or with the tag generic. *)
Definition portable : fbuild := mkF fb_add fb_sub fb_mul fb_double fb_neg fb_square fb_ladd fb_ldouble fb_lsub.
(** arithmetic_decl.go:9-33: amd64, with ADX and without.  Registers, stack and
    flags at entry do not matter (C73_amd64_deterministic): zero here. *)
Definition amd (code : list xins) (a b : fe) : fe := xcall code (repeat 0 17) 0 0 a b.
Definition amd64 (mulcode : list xins) : fbuild :=
  mkF (amd asm_add) (amd asm_sub) (amd mulcode) (fun a => amd asm_double a fb_zero)
    (fun a => if fb_iszero a then a else amd asm_neg a fb_zero) (fun a => amd mulcode a a)
    (amd asm_ladd) (fun a => amd asm_ldouble a fb_zero) (amd asm_lsubAssign).
Definition amd64_adx : fbuild := amd64 asm_mulADX.
Definition amd64_noadx : fbuild := amd64 asm_mulNoADX.

(** ** Constants, bls12_381.go *)
(** :15 *)
Definition r1 : fe := [8505329371266088957; 17002214543764226050; 6865905132761471162; 8632934651105793861; 6631298214892334189; 1582556514881692819].
(** :18-20 *)
Definition r2 : fe := [17644856173732828998; 754043588434789617; 10224657059481499349; 7488229067341005760; 11130996698012816685; 1267921511277847466].
(** :26-29 *)
Definition negativeOne2 : fe2 :=
   ([4897101644811774638; 3654671041462534141; 569769440802610537; 17053147383018470266; 17227549637287919721; 291242102765847046],
    [0; 0; 0; 0; 0; 0]).
(** :35-36, :39-40, :43-44 *)
Definition pMinus3Over4 : Z := 0x680447a8e5ff9a692c6e9ed90d2eb35d91dd2e13ce144afd9cc34a83dac3d8907aaffffac54ffffee7fbfffffffeaaa.
Definition pPlus1Over4 : Z := 0x680447a8e5ff9a692c6e9ed90d2eb35d91dd2e13ce144afd9cc34a83dac3d8907aaffffac54ffffee7fbfffffffeaab.
Definition pMinus1Over2 : Z := 0xd0088f51cbff34d258dd3db21a5d66bb23ba5c279c2895fb39869507b587b120f55ffff58a9ffffdcff7fffffffd555.
(** :47 *)
Definition nonResidue1 : fe := [4897101644811774638; 3654671041462534141; 569769440802610537; 17053147383018470266; 17227549637287919721; 291242102765847046].
(** :63, :66-69: b of the two curves *)
Definition b_g1 : fe := [12260768510540316659; 6038201419376623626; 5156596810353639551; 12813724723179037911; 10288881524157229871; 708830206584151678].
Definition b_g2 : fe2 :=
   ([12260768510540316659; 6038201419376623626; 5156596810353639551; 12813724723179037911; 10288881524157229871; 708830206584151678],
    [12260768510540316659; 6038201419376623626; 5156596810353639551; 12813724723179037911; 10288881524157229871; 708830206584151678]).
(** :72-73 *)
Definition bls_order : Z := 0x73eda753299d7d483339d80809a1d80553bda402fffe5bfeffffffff00000001.
(** cofactorEFFG1, cofactorEFFG2 *)
Definition cofactorEFFG1 : Z := 0xd201000000010001.
Definition cofactorEFFG2 : Z := 0x0bc69f08f2ee75b3584c6a0ea91b352888e2a8e9145ad7689986ff031508ffe1329c2f178731db956d82bf015d1212b02ec0ec69d7477c1ae954cbc06689f6a359894c0adebbf6b4e8020005aaa95551.

(** ** field_element.go *)
(** :16-31 and :33-50 for 48-byte inputs (the only ones: fp.go:12 checks).  The
    eight bytes or-ed into a word are written as their big-endian value. *)
Definition fe_FromBytes (b : bytes) : fe :=
  map (fun i => be2z (firstn 8 (skipn (40 - 8 * i) b))) (seq 0 6).
Definition fe_Bytes (e : fe) : bytes := flat_map (z2be 8) (rev e).
(** :118-121, :123-125 is ModelBlsF.fb_iszero *)
Definition fe_IsEven (e : fe) : bool := Z.land (nth 0 e 0) 1 =? 0.
(** :131-140; the comparison starts at the most significant word *)
Fixpoint cmp_ms (a b : list Z) : Z :=
  match a, b with
  | x :: a', y :: b' => if y <? x then 1 else if x <? y then -1 else cmp_ms a' b'
  | _, _ => 0
  end.
Definition fe_Cmp (a b : fe) : Z := cmp_ms (rev a) (rev b).
(** :142-144 *)
Fixpoint fe_Equals (a b : list Z) : bool :=
  match a, b with
  | x :: a', y :: b' => (y =? x) && fe_Equals a' b'
  | [], [] => true
  | _, _ => false
  end.
(** :159-166 with e = 0 and :168-177 *)
Fixpoint fe_div2 (e : list Z) : list Z :=
  match e with
  | x :: r => Z.lor (Z.shiftr x 1) (Z.shiftl (nth 0 r 0) 63 mod B64) :: fe_div2 r
  | [] => []
  end.
Fixpoint fe_mul2 (e : list Z) (low : Z) : list Z * Z :=
  match e with
  | x :: r => let '(r', k) := fe_mul2 r (Z.shiftr x 63) in
              (Z.lor (Z.shiftl x 1 mod B64) low :: r', k)
  | [] => ([], low)
  end.

Section Build.
Variable F : fbuild.
Notation add := (f_add F). Notation sub := (f_sub F). Notation mul := (f_mul F).
Notation double := (f_double F). Notation neg := (f_neg F). Notation square := (f_square F).
Notation ladd := (f_ladd F). Notation ldouble := (f_ldouble F). Notation lsub := (f_lsub F).

(** ** fp.go *)
(** :93-95, :10-21 *)
Definition fe_valid (e : fe) : bool := fe_Cmp e bls_q =? -1.
Definition fromBytes (b : bytes) : option fe :=
  if negb (Nat.eqb (length b) 48) then None
  else let e := fe_FromBytes b in if fe_valid e then Some (mul e r2) else None.
(** :23-52 *)
Definition from64F : fe :=
  [0x75b3cd7c5ce820f; 0x3ec6ba621c3edb0b; 0x168a13d82bff6bce; 0x87663c4bf8c449d2; 0x15f34c83ddc8d830; 0xf9628b49caa2e85].
Definition from64Bytes (b : bytes) : option fe :=
  if negb (Nat.eqb (length b) 64) then None
  else match fromBytes (repeat 0 16 ++ firstn 32 b), fromBytes (repeat 0 16 ++ skipn 32 b) with
       | Some e0, Some e1 => Some (add e1 (mul e0 from64F))
       | _, _ => None
       end.
(** :126-132, :75-79 *)
Definition toMont (a : fe) : fe := mul a r2.
Definition fromMont (a : fe) : fe := mul a [1; 0; 0; 0; 0; 0].
Definition toBytes (a : fe) : bytes := fe_Bytes (fromMont a).
(** :134-143: the loop starts one position above the top bit *)
Fixpoint exp_pos (a : fe) (e : positive) : fe :=
  match e with
  | xH => let z := mul r1 r1 in mul (mul z z) a
  | xO e' => let z := exp_pos a e' in mul z z
  | xI e' => let z := exp_pos a e' in mul (mul z z) a
  end.
Definition fexp (a : fe) (e : Z) : fe :=
  match e with Zpos p => exp_pos a p | _ => mul r1 r1 end.
(** :145-205.  Phase 1 returns r, z, k, or None when 768 rounds do not suffice *)
Fixpoint inv_loop (n : nat) (u v s r : fe) (z : Z) (k : Z) : option (fe * Z * Z) :=
  match n with
  | O => None
  | S n' =>
      if fb_iszero v then Some (r, z, k)
      else if fe_IsEven u then inv_loop n' (fe_div2 u) v (fst (fe_mul2 s 0)) r z (k + 1)
      else if fe_IsEven v then
        let '(r', c) := fe_mul2 r 0 in inv_loop n' u (fe_div2 v) s r' (z + c) (k + 1)
      else if fe_Cmp u v =? 1 then
        inv_loop n' (fe_div2 (lsub u v)) v (fst (fe_mul2 s 0)) (ladd r s) z (k + 1)
      else
        let '(r', c) := fe_mul2 r 0 in
        inv_loop n' u (fe_div2 (lsub v u)) (ladd s r) r' (z + c) (k + 1)
  end.
Definition inverse (e : fe) : fe :=
  if fb_iszero e then fb_zero
  else match inv_loop 768 bls_q e [1; 0; 0; 0; 0; 0] fb_zero 0 0 with
       | None => fb_zero
       | Some (r, z, k) =>
           if (k <? 381) || (381 + 384 <? k) then fb_zero
           else let r := if negb (fe_Cmp r bls_q =? -1) || (0 <? z) then lsub r bls_q else r in
                Nat.iter (Z.to_nat (768 - k)) double (lsub bls_q r)
       end.
(** :207-212: the root (or what replaces it) and the check *)
Definition fsqrt (a : fe) : fe * bool :=
  let c := fexp a pPlus1Over4 in (c, fe_Equals a (square c)).
(** :214-218 *)
Definition isQNR (e : fe) : bool := negb (fe_Equals (fexp e pMinus1Over2) r1).
(** field_element.go:146-151, :153-157 *)
Definition signBE (e : fe) : bool :=
  let z := fromMont e in -1 <? fe_Cmp (neg z) z.
Definition sign (e : fe) : bool := Z.land (nth 0 (fromMont e) 0) 1 =? 0.

(** ** fp2.go *)
(** :30-50 *)
Definition fp2_fromBytes (b : bytes) : option fe2 :=
  if negb (Nat.eqb (length b) 96) then None
  else match fromBytes (firstn 48 b), fromBytes (skipn 48 b) with
       | Some c1, Some c0 => Some (c0, c1)
       | _, _ => None
       end.
Definition fp2_toBytes (a : fe2) : bytes := toBytes (snd a) ++ toBytes (fst a).
(** :56-62, :81-91 *)
Definition fp2_zero : fe2 := (fb_zero, fb_zero).
Definition fp2_one : fe2 := (r1, fb_zero).
Definition fp2_isZero (a : fe2) : bool := fb_iszero (fst a) && fb_iszero (snd a).
Definition fp2_equal (a b : fe2) : bool := fe_Equals (fst a) (fst b) && fe_Equals (snd a) (snd b).
(** :98-101, :113-116, :129-132, :139-142 *)
Definition fp2_add (a b : fe2) : fe2 := (add (fst a) (fst b), add (snd a) (snd b)).
Definition fp2_double (a : fe2) : fe2 := (double (fst a), double (snd a)).
Definition fp2_sub (a b : fe2) : fe2 := (sub (fst a) (fst b), sub (snd a) (snd b)).
Definition fp2_neg (a : fe2) : fe2 := (neg (fst a), neg (snd a)).
(** :149-159 *)
Definition fp2_mul (a b : fe2) : fe2 :=
  let t1 := mul (fst a) (fst b) in
  let t2 := mul (snd a) (snd b) in
  let t0 := add (fst a) (snd a) in
  let t3 := add (fst b) (snd b) in
  let c0 := sub t1 t2 in
  let t1 := add t1 t2 in
  let t0 := mul t0 t3 in
  (c0, sub t0 t1).
(** :173-180: the sum and the double are not reduced *)
Definition fp2_square (a : fe2) : fe2 :=
  let t0 := ladd (fst a) (snd a) in
  let t1 := sub (fst a) (snd a) in
  let t2 := ldouble (fst a) in
  (mul t0 t1, mul t2 (snd a)).
(** :208-217 *)
Definition fp2_inverse (a : fe2) : fe2 :=
  let t0 := add (square (fst a)) (square (snd a)) in
  let t0 := inverse t0 in
  (mul (fst a) t0, neg (mul t0 (snd a))).
(** :224-233 *)
Fixpoint fp2_exp_pos (a : fe2) (e : positive) : fe2 :=
  match e with
  | xH => fp2_mul (fp2_square fp2_one) a
  | xO e' => fp2_square (fp2_exp_pos a e')
  | xI e' => fp2_mul (fp2_square (fp2_exp_pos a e')) a
  end.
Definition fp2_exp (a : fe2) (e : Z) : fe2 :=
  match e with Zpos p => fp2_exp_pos a p | _ => fp2_one end.
(** :257-274 *)
Definition fp2_sqrt (a : fe2) : fe2 * bool :=
  let a1 := fp2_exp a pMinus3Over4 in
  let alpha := fp2_mul (fp2_square a1) a in
  let x0 := fp2_mul a1 a in
  if fp2_equal alpha negativeOne2 then ((neg (snd x0), fst x0), true)
  else
    let alpha := fp2_exp (fp2_add alpha fp2_one) pMinus1Over2 in
    let c := fp2_mul alpha x0 in
    (c, fp2_equal (fp2_square c) a).
(** field_element.go:310-315, :317-325 *)
Definition fp2_signBE (a : fe2) : bool :=
  if negb (fb_iszero (snd a)) then signBE (snd a) else signBE (fst a).
Definition fp2_sign (a : fe2) : bool :=
  if negb (fb_iszero (fst a)) then Z.land (nth 0 (fromMont (fst a)) 0) 1 =? 0
  else Z.land (nth 0 (fromMont (snd a)) 0) 1 =? 0.
End Build.

(** ** g1.go and g2.go *)
Record cfield (T : Type) := mkC {
  c_zero : T; c_one : T; c_b : T;
  c_add : T -> T -> T; c_sub : T -> T -> T; c_mul : T -> T -> T;
  c_double : T -> T; c_neg : T -> T; c_square : T -> T; c_inverse : T -> T;
  c_equal : T -> T -> bool; c_isZero : T -> bool;
  c_sqrt : T -> T * bool; c_signBE : T -> bool;
  c_len : nat; c_fromBytes : bytes -> option T; c_toBytes : T -> bytes }.
Arguments c_zero {T}. Arguments c_one {T}. Arguments c_b {T}. Arguments c_add {T}. Arguments c_sub {T}.
Arguments c_mul {T}. Arguments c_double {T}. Arguments c_neg {T}. Arguments c_square {T}.
Arguments c_inverse {T}. Arguments c_equal {T}. Arguments c_isZero {T}. Arguments c_sqrt {T}.
Arguments c_signBE {T}. Arguments c_len {T}. Arguments c_fromBytes {T}. Arguments c_toBytes {T}.

Definition C1 (F : fbuild) : cfield fe :=
  mkC fe fb_zero r1 b_g1 (f_add F) (f_sub F) (f_mul F) (f_double F) (f_neg F) (f_square F) (inverse F)
    fe_Equals fb_iszero (fsqrt F) (signBE F) 48 (fromBytes F) (toBytes F).
Definition C2 (F : fbuild) : cfield fe2 :=
  mkC fe2 fp2_zero fp2_one b_g2 (fp2_add F) (fp2_sub F) (fp2_mul F) (fp2_double F) (fp2_neg F) (fp2_square F)
    (fp2_inverse F) fp2_equal fp2_isZero (fp2_sqrt F) (fp2_signBE F) 96 (fp2_fromBytes F) (fp2_toBytes F).

(** g1.go:12, g2.go:13: [3]fe, [3]fe2 *)
Record point (T : Type) := mkP { px : T; py : T; pz : T }.
Arguments mkP {T}. Arguments px {T}. Arguments py {T}. Arguments pz {T}.

Section Curve.
Context {T : Type}.
Variable C : cfield T.
Notation add := (c_add C). Notation sub := (c_sub C). Notation mul := (c_mul C).
Notation double := (c_double C). Notation square := (c_square C).

(** g1.go:238-244, g2.go:246-252; the variables infinity and infinity2 of
    bls12_381.go:84-103 have the same value *)
Definition g_Zero : point T := mkP (c_zero C) (c_one C) (c_zero C).
(** a Go variable declared without a value: all words 0 *)
Definition g_Blank : point T := mkP (c_zero C) (c_zero C) (c_zero C).
(** g1.go:257-259, g2.go:265-267 *)
Definition g_IsZero (p : point T) : bool := c_isZero C (pz p).
(** g1.go:379-409, g2.go:387-417 *)
Definition g_Double (p : point T) : point T :=
  if g_IsZero p then p
  else
    let t0 := square (px p) in
    let t1 := square (py p) in
    let t2 := square t1 in
    let t1 := add (px p) t1 in
    let t1 := square t1 in
    let t1 := sub t1 t0 in
    let t1 := sub t1 t2 in
    let t1 := double t1 in
    let t3 := double t0 in
    let t0 := add t3 t0 in
    let t4 := square t0 in
    let t3 := double t1 in
    let x3 := sub t4 t3 in
    let t1 := sub t1 x3 in
    let t2 := double (double (double t2)) in
    let t0 := mul t0 t1 in
    let y3 := sub t0 t2 in
    let t0 := mul (py p) (pz p) in
    mkP x3 y3 (double t0).
(** g1.go:328-376, g2.go:336-384 *)
Definition g_Add (p1 p2 : point T) : point T :=
  if g_IsZero p1 then p2
  else if g_IsZero p2 then p1
  else
    let t7 := square (pz p1) in
    let t1 := mul (px p2) t7 in
    let t2 := mul (pz p1) t7 in
    let t0 := mul (py p2) t2 in
    let t8 := square (pz p2) in
    let t3 := mul (px p1) t8 in
    let t4 := mul (pz p2) t8 in
    let t2 := mul (py p1) t4 in
    if c_equal C t1 t3 then
      if c_equal C t0 t2 then g_Double p1 else g_Zero
    else
      let t1 := sub t1 t3 in
      let t4 := double t1 in
      let t4 := square t4 in
      let t5 := mul t1 t4 in
      let t0 := sub t0 t2 in
      let t0 := double t0 in
      let t6 := square t0 in
      let t6 := sub t6 t5 in
      let t3 := mul t3 t4 in
      let t4 := double t3 in
      let x3 := sub t6 t4 in
      let t4 := sub t3 x3 in
      let t6 := mul t2 t5 in
      let t6 := double t6 in
      let t0 := mul t0 t4 in
      let y3 := sub t0 t6 in
      let t0 := add (pz p1) (pz p2) in
      let t0 := square t0 in
      let t0 := sub t0 t7 in
      let t0 := sub t0 t8 in
      mkP x3 y3 (mul t0 t1).
(** g1.go:412-417, g2.go:420-425 *)
Definition g_Neg (p : point T) : point T := mkP (px p) (c_neg C (py p)) (pz p).
(** g1.go:420-425, g2.go:428-433 *)
Definition g_Sub (a b : point T) : point T := g_Add a (g_Neg b).
(** g1.go:428-439, g2.go:436-447; the doubling after the last bit has no effect
    on the result and is left out *)
Fixpoint mul_loop (e : positive) (q n : point T) : point T :=
  match e with
  | xH => g_Add q n
  | xO e' => mul_loop e' q (g_Double n)
  | xI e' => mul_loop e' (g_Add q n) (g_Double n)
  end.
Definition g_MulScalar (p : point T) (e : Z) : point T :=
  match e with Zpos k => mul_loop k g_Blank p | _ => g_Blank end.
(** g1.go:282-286, g2.go:290-294 *)
Definition g_InCorrectSubgroup (p : point T) : bool := g_IsZero (g_MulScalar p bls_order).
(** g1.go:289-303, g2.go:297-311 *)
Definition g_IsOnCurve (p : point T) : bool :=
  if g_IsZero p then true
  else
    let t0 := square (py p) in
    let t1 := square (px p) in
    let t1 := mul t1 (px p) in
    let t2 := square (pz p) in
    let t3 := square t2 in
    let t2 := mul t2 t3 in
    let t2 := mul (c_b C) t2 in
    let t1 := add t1 t2 in
    c_equal C t0 t1.
(** g1.go:311-325, g2.go:319-333 *)
Definition g_Affine (p : point T) : point T :=
  if g_IsZero p then p
  else if negb (c_equal C (pz p) (c_one C)) then
    let t0 := c_inverse C (pz p) in
    let t1 := square t0 in
    let x := mul (px p) t1 in
    let t0 := mul t0 t1 in
    let y := mul (py p) t0 in
    mkP x y (c_one C)
  else p.
(** g1.go:262-279, g2.go:270-287 *)
Definition g_Equal (p1 p2 : point T) : bool :=
  if g_IsZero p1 then g_IsZero p2
  else if g_IsZero p2 then g_IsZero p1
  else
    let t0 := square (pz p1) in
    let t1 := square (pz p2) in
    let t2 := mul t0 (px p2) in
    let t3 := mul t1 (px p1) in
    let t0 := mul t0 (pz p1) in
    let t1 := mul t1 (pz p2) in
    let t1 := mul t1 (py p1) in
    let t0 := mul t0 (py p2) in
    c_equal C t0 t1 && c_equal C t2 t3.

(** a byte string with the given first byte, then zeros *)
Definition only_first (h : Z) (b : bytes) : bool :=
  match b with x :: r => (x =? h) && forallb (Z.eqb 0) r | [] => false end.
Definition bit_set (b : bytes) (m : Z) : bool := negb (Z.land (nth 0 b 0) m =? 0).
Definition clear_flags (b : bytes) : bytes :=
  match b with x :: r => Z.land x 0x1f :: r | [] => [] end.
Definition or_first (m : Z) (b : bytes) : bytes :=
  match b with x :: r => Z.lor x m :: r | [] => [] end.

(** g1.go:114-155, g2.go:122-163 *)
Definition g_FromCompressed (compressed : bytes) : option (point T) :=
  if Nat.ltb (length compressed) (c_len C) then None
  else
    let b := firstn (c_len C) compressed in
    if negb (bit_set b 128) then None
    else if bit_set b 64 then if only_first 0xc0 b then Some g_Zero else None
    else
      let a := bit_set b 32 in
      match c_fromBytes C (clear_flags b) with
      | None => None
      | Some x =>
          let y := square x in
          let y := mul y x in
          let y := add y (c_b C) in
          let '(y, ok) := c_sqrt C y in
          if negb ok then None
          else
            let y := if Bool.eqb (c_signBE C y) a then c_neg C y else y in
            let p := mkP x y (c_one C) in
            if negb (g_InCorrectSubgroup p) then None else Some p
      end.
(** g1.go:161-174, g2.go:169-182 *)
Definition g_ToCompressed (p : point T) : bytes :=
  let p := g_Affine p in
  let out :=
    if g_IsZero p then or_first 64 (repeat 0 (c_len C))
    else
      let out := c_toBytes C (px p) in
      if negb (c_signBE C (py p)) then or_first 32 out else out in
  or_first 128 out.
(** g1.go:54-92, g2.go:62-100 *)
Definition g_FromUncompressed (u : bytes) : option (point T) :=
  if Nat.ltb (length u) (2 * c_len C) then None
  else
    let b := firstn (2 * c_len C) u in
    if bit_set b 128 then None
    else if bit_set b 32 then None
    else if bit_set b 64 then if only_first 0x40 b then Some g_Zero else None
    else
      let b := clear_flags b in
      match c_fromBytes C (firstn (c_len C) b), c_fromBytes C (skipn (c_len C) b) with
      | Some x, Some y =>
          let p := mkP x y (c_one C) in
          if negb (g_IsOnCurve p) then None
          else if negb (g_InCorrectSubgroup p) then None else Some p
      | _, _ => None
      end.
(** g1.go:98-108, g2.go:106-117 *)
Definition g_ToUncompressed (p : point T) : bytes :=
  if g_IsZero p then or_first 64 (repeat 0 (2 * c_len C))
  else let p := g_Affine p in c_toBytes C (px p) ++ c_toBytes C (py p).
End Curve.

(** bls12_381.go:105-109, :119-132 *)
Definition g1One : point fe :=
  mkP [6679831729115696150; 8653662730902241269; 1535610680227111361; 17342916647841752903; 17135755455211762752; 1297449291367578485]
      [13451288730302620273; 10097742279870053774; 15949884091978425806; 5885175747529691540; 1016841820992199104; 845620083434234474] r1.
Definition g2One : point fe2 :=
  mkP ([17722385409647053328; 12967546844987299354; 11648722842835150208; 10994581490347323113; 8027586497049998955; 396758299565931735],
    [11937283898719073798; 12295044263989567683; 4301357764460312582; 1953074377943790439; 14030662337566180679; 1266120665323335155])
      ([5508758831087832138; 6448303779119275098; 16710190169160573786; 13542242618704742751; 563980702369916322; 37152010398653157],
    [12520284671833321565; 1777275927576994268; 9704602344324656032; 8739618045342622522; 16651875250601773805; 804950956836789234]) fp2_one.

(** ** hash_to_field.go, with the hash function as a parameter *)
Section Hash.
Variable H : bytes -> bytes.
Definition xor_bytes (a b : bytes) : bytes := map (fun '(x, y) => Z.lxor x y) (combine a b).
(** :51-66: the blocks b_1 .. b_(n+1), where bi is b_i *)
Fixpoint xmd_blocks (n : nat) (i : Z) (b0 bi dst : bytes) : list bytes :=
  match n with
  | O => [bi]
  | S n' => bi :: xmd_blocks n' (i + 1) b0 (H (xor_bytes b0 bi ++ [(1 + i) mod 256] ++ dst)) dst
  end.
(** :23-70.  For outLen = 0 the slice expression of :68 panics *)
Definition expandMsg (msg domain : bytes) (outLen : Z) : outcome bytes :=
  let dst := domain ++ [Z.of_nat (length domain) mod 256] in
  let b0 := H (repeat 0 64 ++ msg ++ [Z.shiftr outLen 8 mod 256; outLen mod 256] ++ [0] ++ dst) in
  let b1 := H (b0 ++ [1] ++ dst) in
  let ell := (outLen + 32 - 1) / 32 in
  if ell <? 1 then Panic
  else Ret (firstn (Z.to_nat outLen) (concat (xmd_blocks (Z.to_nat (ell - 1)) 1 b0 b1 dst))).
(** :8-21; count is positive in every call *)
Fixpoint all_some {A} (l : list (option A)) : option (list A) :=
  match l with
  | [] => Some []
  | Some x :: r => match all_some r with Some y => Some (x :: y) | None => None end
  | None :: _ => None
  end.
Definition hashToFp (F : fbuild) (msg domain : bytes) (count : nat) : outcome (option (list fe)) :=
  match expandMsg msg domain (Z.of_nat count * 64) with
  | Panic => Panic
  | Ret rb => Ret (all_some (map (fun i => from64Bytes F (firstn 64 (skipn (i * 64) rb))) (seq 0 count)))
  end.
End Hash.

(** ** swu.go *)
(** The parameters :118-159 *)
Record swu (T : Type) := mkSwu { sw_a : T; sw_b : T; sw_z : T; sw_zInv : T; sw_m : T }.
Arguments mkSwu {T}. Arguments sw_a {T}. Arguments sw_b {T}. Arguments sw_z {T}. Arguments sw_zInv {T}. Arguments sw_m {T}.
Definition swuG1 : swu fe := mkSwu
  [3415322872136444497; 9675504606121301699; 13284745414851768802; 2873609449387478652; 2897906769629812789; 1536947672689614213]
  [18129637713272545760; 11144507692959411567; 10108153527111632324; 9745270364868568433; 14587922135379007624; 469008097655535723]
  [9830232086645309404; 1112389714365644829; 8603885298299447491; 11361495444721768256; 5788602283869803809; 543934104870762216]
  [1047701040585522704; 6568704757426767313; 7461573184509654906; 5499015922318795030; 11226104418450030905; 1048548528059189658]
  [370847444534405118; 4269648997187665026; 1978763176675559811; 2677363437243537255; 11096866317338941469; 683609622716391635].
Definition swuG2 : swu fe2 := mkSwu
  ([0; 0; 0; 0; 0; 0],
    [16517514583386313282; 74322656156451461; 16683759486841714365; 815493829203396097; 204518332920448171; 1306242806803223655])
  ([2515823342057463218; 7982686274772798116; 7934098172177393262; 8484566552980779962; 4455086327883106868; 1323173589274087377],
    [2515823342057463218; 7982686274772798116; 7934098172177393262; 8484566552980779962; 4455086327883106868; 1323173589274087377])
  ([9794203289623549276; 7309342082925068282; 1139538881605221074; 15659550692327388916; 16008355200866287827; 582484205531694093],
    [4897101644811774638; 3654671041462534141; 569769440802610537; 17053147383018470266; 17227549637287919721; 291242102765847046])
  ([949978046398372251; 9282594348372276018; 12783089135259591524; 8269126545290330608; 594742981125487701; 491256564635846792],
    [15449598521694521480; 14910517655282017894; 6549664756007020895; 17931849781271742567; 2408680398672607296; 691271026505846537])
  ([10393275865055580083; 6888480573845999877; 11497223857339693790; 14306043441748627554; 5078453791572287059; 1040691004897901061],
    [3009155151022283512; 13768405011380760314; 14385194789933939525; 11380038592375636572; 333649986898415235; 833107612749638805]).
(** :5-52, :56-116: one text for both fields.  qnr is isQuadraticNonResidue,
    sgn is sign *)
Section Swu.
Context {T : Type}.
Variables (C : cfield T) (P : swu T) (qnr sgn : T -> bool).
Definition swuMap (u : T) : T * T :=
  let tv0 := c_mul C (c_square C u) (sw_z P) in
  let tv1 := c_square C tv0 in
  let x1 := c_inverse C (c_add C tv0 tv1) in
  let e1 := c_isZero C x1 in
  let x1 := c_add C x1 (c_one C) in
  let x1 := if e1 then sw_zInv P else x1 in
  let x1 := c_mul C x1 (sw_m P) in
  let gx1 := c_square C x1 in
  let gx1 := c_add C gx1 (sw_a P) in
  let gx1 := c_mul C gx1 x1 in
  let gx1 := c_add C gx1 (sw_b P) in
  let x2 := c_mul C tv0 x1 in
  let tv1 := c_mul C tv0 tv1 in
  let gx2 := c_mul C gx1 tv1 in
  let e2 := negb (qnr gx1) in
  let x := if e2 then x1 else x2 in
  let y2 := if e2 then gx1 else gx2 in
  let y := fst (c_sqrt C y2) in
  (x, if negb (Bool.eqb (sgn y) (sgn u)) then c_neg C y else y).
End Swu.
Section Maps.
Variable F : fbuild.
Definition swuMapG1 : fe -> fe * fe := swuMap (C1 F) swuG1 (isQNR F) (sign F).
(** swu.go:83-92 *)
Definition fp2_isQNR (e : fe2) : bool :=
  let c0 := f_square F (fst e) in
  let c1 := f_neg F (f_mul F (f_square F (snd e)) nonResidue1) in
  isQNR F (f_add F c1 c0).
Definition swuMapG2 : fe2 -> fe2 * fe2 := swuMap (C2 F) swuG2 fp2_isQNR (fp2_sign F).
End Maps.

(** ** isogeny.go *)
(** :64-137, :139-212 *)
Definition isogenyG1 : list (list fe) :=
  [[[5555391298090832668; 1871845530032595596; 4551034694774233518; 2584197799339864836; 15085749040064757844; 654075415717002996];
    [9910598932128054667; 4357765064159749802; 1555960221863322426; 9671461638228026285; 1275132148248838779; 507072521670460589];
    [11908177372061066827; 18190436643933350086; 6603102998733829542; 6581045210674032871; 16099974426311393401; 541581077397919012];
    [5282195870529824577; 12365729195083706401; 2807246122435955773; 332702220601507168; 7339422050895811209; 1050416448951884523];
    [10443415753526299973; 8852419397684277637; 1088333252544296036; 1174353327457337436; 1626144519293139599; 716651429285276662];
    [7916646322956281527; 11909818257232418749; 1455301921509471421; 3317627683558310107; 12693445337245173919; 1798273032850409769];
    [2577731109215284733; 8810166123993386985; 3186592767751348067; 15050850291391518479; 18435652654155870871; 1330813445865859326];
    [8787912969482053798; 9653629252694769025; 1358451377919714320; 16331599695590198629; 13519934665722691825; 628078949001449512];
    [16605411443261943819; 9536014432113026165; 8685402948537367476; 16291074259433785035; 407185289045737198; 713426768049972652];
    [1001421273809907975; 724433776290697394; 16309429154639760781; 10003715605277815375; 307249038158020985; 688008371043525493];
    [16622893420529658311; 18333652517857227637; 2139173376235292830; 16496634502105693419; 5355299366650241487; 382770009771704860];
    [8276255265012938363; 9997870203437298645; 16819210142450232135; 5062450688048499179; 12776432501206859311; 1778476024187613533];
    [0; 0; 0; 0; 0; 0];
    [0; 0; 0; 0; 0; 0];
    [0; 0; 0; 0; 0; 0];
    [0; 0; 0; 0; 0; 0]];
   [[13358415881952098629; 12009257493157516192; 13928884382876484932; 12988314785833227070; 11244145530317148182; 100673949996487007];
    [2533162896381624793; 10578896196504721258; 4263020647280931071; 1255899686249737875; 17097124965295857733; 590960935246623182];
    [10990404485039254780; 5344458621503091696; 1718862119039451458; 11600049052019063549; 18389973225607751698; 1092616849767867362];
    [16377845895484993601; 15314247056264135931; 14543008873173635408; 4875476272346940127; 2030129768648768484; 1297689274107773964];
    [6376927397170316667; 1460555178565443615; 18156708192400235081; 14761117739963869762; 8361091377443400626; 1421233557303902229];
    [18127417459170613536; 5353764292720778676; 858818813615405862; 3528937506143354306; 12604964186779349896; 489837025077541867];
    [15285065477075910543; 3650488990300576179; 7274499670465195193; 16100555180954076900; 7580582425312971905; 896074979407586822];
    [7582945168915351799; 2506680954090651888; 10272835934257987876; 9924916350558121763; 13577194922650729507; 1698254565890367778];
    [2009730524583761661; 11053280693947850663; 14409256190409559425; 3658799329773368860; 13529638021208614900; 869243908766415668];
    [11058048790650732295; 7059501760293999296; 6596812464094265283; 14567744481299745071; 1591898617514919697; 1344004358835331304];
    [8505329371266088957; 17002214543764226050; 6865905132761471162; 8632934651105793861; 6631298214892334189; 1582556514881692819];
    [0; 0; 0; 0; 0; 0];
    [0; 0; 0; 0; 0; 0];
    [0; 0; 0; 0; 0; 0];
    [0; 0; 0; 0; 0; 0];
    [0; 0; 0; 0; 0; 0]];
   [[3122824077082063463; 2111517899915568999; 14844585557031220083; 14713720721132803039; 9041847780307969683; 950267513573868304];
    [11079511902567680319; 18338468344530008184; 6769016392463638666; 1504264063027988936; 8098359051856762276; 760455062874047829];
    [1430247552210236986; 3854575382974307965; 14917507996414511245; 207936139448560; 9498310774218301406; 1438631746617682181];
    [6654065794071117243; 2928282753802966791; 4144383358731160429; 12673586709493869907; 12918170109018188791; 844088361957958231];
    [6416330705244672319; 3552017270878949117; 7777490944331917312; 7917192495177481567; 7271851377118683537; 253926972271069325];
    [11903306495973637341; 11622313950541285762; 17991208474928993001; 12280964980743791783; 14941570282955772167; 143516344770893715];
    [7324386472845891920; 16310961984705608217; 14050364318273732029; 410622978843904432; 13407944087243235067; 570579643952782879];
    [10655681039374273828; 3913226275392147601; 9613292388335178165; 11852815148890010639; 17652581670569921892; 780578093363976825];
    [10454026283255684948; 15005802245309313587; 4420421943175638630; 18052347756729021570; 12181908985148691767; 1485233717472293779];
    [5056344670784885274; 15896288289018563095; 11120951801157184493; 7250506164525313606; 9295677455526059106; 1757175036496698059];
    [417067620545670182; 113740147118943311; 7666319924200602156; 1469963335415292317; 13482947512490784447; 1353298443678343909];
    [13069093794065563159; 18364685236451803588; 2235996605706292724; 1007629142299662669; 4077244143222018961; 162586537120788900];
    [12976751790971550752; 10256454045927919861; 8968423978443605586; 91636529236982767; 9459527627289574163; 949550897353139410];
    [10595118024452621845; 8010256778549625402; 10333144214150401956; 17682229685967587631; 8235697699445463546; 317883997785997129];
    [16894283457285346118; 10513943172407809423; 4685513162956315481; 11558261883362075118; 574375951146893083; 1159440548124233311];
    [9739780494108151959; 17207219630538774058; 553911396609642498; 6085929320386029624; 14175410874026216616; 1183751611824804793]];
   [[16963992846030154524; 1796759822929186144; 15995221960860457854; 8232142361908220707; 5977498266010213481; 759868220591477233];
    [7019489280640006651; 8025136855967848721; 17464762292772824538; 4490335113250743896; 7652702793653159798; 1129822927746498110];
    [3164260796573156764; 2639884922337322818; 1251365706181388855; 13142429936036186189; 359878619957828340; 126848055205862465];
    [17472832885692408710; 9911075278795900735; 2614390623136861791; 14474775734428698630; 6462878218464609418; 1225960780180864957];
    [3586995257703132870; 2143554115308730112; 15207899356205612465; 4372523065560113828; 12811868595146042778; 307251632623424763];
    [14298637377310410728; 10963101290308221781; 8192510423058716701; 1175370967867267532; 1029599188863854120; 678981456155013844];
    [11149806480082726900; 3664985661428410608; 18095361538178773836; 14174906593575241395; 15305104369759711886; 901234928011491053];
    [4727074327869776987; 15736954329525418288; 14642679026711520511; 11429849039208981702; 17333567062758618213; 951235897335772166];
    [9130114290642375589; 14069725355798443159; 6621984191700563591; 270173975669947883; 6218390495944243859; 1077419361593130421];
    [9144875514986933294; 16561351410666797616; 8591333879886582656; 15059370240386191395; 7834396448114781869; 946553772269403391];
    [17809450171377747225; 15896956440537434491; 8451524482089653422; 1694507265233574136; 18224201536921880842; 317503425606567070];
    [13940503876759740187; 8772047862193200131; 6080360161890657205; 7935486160089058373; 9407473295146243021; 1255078947940629503];
    [1160821217138360586; 13542760608074182996; 11595911004531652098; 18158686636947034451; 13330657138280564947; 1773960737279760188];
    [9132548444917292754; 16464415422105000789; 6319313500251671073; 12727658548847517900; 10985275115076354035; 1431541893474124246];
    [662485641082390837; 260809847827618849; 6177381409359357075; 18231947741742261351; 18128540110746580014; 1079107229429227022];
    [8505329371266088957; 17002214543764226050; 6865905132761471162; 8632934651105793861; 6631298214892334189; 1582556514881692819]]].
Definition isogenyG2 : list (list fe2) :=
  [[([5185457120960601698; 494647221959407934; 8971396042087821730; 324544954362548322; 14214792730224113654; 1405280679127738945], [5185457120960601698; 494647221959407934; 8971396042087821730; 324544954362548322; 14214792730224113654; 1405280679127738945]);
    ([0; 0; 0; 0; 0; 0], [6910023028261548496; 9745789443900091043; 7668299866710145304; 2432656849393633605; 2897729527445498821; 776645607375592125]);
    ([724047465092313539; 15783990863276714670; 12824896677063784855; 15246381572572671516; 13186611051602728692; 1485475813959743803], [12678383550985550056; 4872894721950045521; 13057521970209848460; 10439700461551592610; 10672236800577525218; 388322803687796062]);
    ([4659755689450087917; 1804066951354704782; 15570919779568036803; 15592734958806855601; 7597208057374167129; 1841438384006890194], [0; 0; 0; 0; 0; 0])];
   [([0; 0; 0; 0; 0; 0], [2250392438786206615; 17463829474098544446; 14571211649711714824; 4495761442775821336; 258811604141191305; 357646605018048850]);
    ([4933130441833534766; 15904462746612662304; 8034115857496836953; 12755092135412849606; 7007796720291435703; 252692002104915169], [8469300574244328829; 4752422838614097887; 17848302789776796362; 12930989898711414520; 16851051131888818207; 1621106615542624696]);
    ([8505329371266088957; 17002214543764226050; 6865905132761471162; 8632934651105793861; 6631298214892334189; 1582556514881692819], [0; 0; 0; 0; 0; 0]);
    ([0; 0; 0; 0; 0; 0], [0; 0; 0; 0; 0; 0])];
   [([10869708750642247614; 13056187057366814946; 1750362034917495549; 6326189602300757217; 1140223926335695785; 632761649765668291], [10869708750642247614; 13056187057366814946; 1750362034917495549; 6326189602300757217; 1140223926335695785; 632761649765668291]);
    ([0; 0; 0; 0; 0; 0], [13765940311003083782; 5579209876153186557; 11349908400803699438; 11707848830955952341; 199199289641242246; 899896674917908607]);
    ([15562563812347550836; 2436447360975022760; 6528760985104924230; 5219850230775796305; 5336118400288762609; 194161401843898031], [16286611277439864375; 18220438224251737430; 906913588459157469; 2019487729638916206; 75985378181939686; 1679637215803641835]);
    ([11849179119594500956; 13906615243538674725; 14543197362847770509; 2041759640812427310; 2879701092679313252; 1259985822978576468], [0; 0; 0; 0; 0; 0])];
   [([99923616639376095; 10339114964526300021; 6204619029868000785; 1288486622530663893; 14587509920085997152; 272081012460753233], [99923616639376095; 10339114964526300021; 6204619029868000785; 1288486622530663893; 14587509920085997152; 272081012460753233]);
    ([0; 0; 0; 0; 0; 0], [6751177316358619845; 15498000274876530106; 6820146801716041242; 13487284328327464010; 776434812423573915; 1072939815054146550]);
    ([7399695662750302149; 14633322083064217648; 12051173786245255430; 9909266166264498601; 1288323043582377747; 379038003157372754], [6002735353327561446; 6023563502162542543; 13831244861028377885; 15776815867859765525; 4123780734888324547; 1494760614490167112]);
    ([8505329371266088957; 17002214543764226050; 6865905132761471162; 8632934651105793861; 6631298214892334189; 1582556514881692819], [0; 0; 0; 0; 0; 0])]].
Section Iso.
Context {T : Type}.
Variables (C : cfield T) (P : list (list T)).
(** Horner's rule from the highest coefficient down *)
Definition horner (x : T) (co : list T) : T :=
  match rev co with
  | [] => c_zero C
  | top :: rest => fold_left (fun acc c => c_add C (c_mul C acc x) c) rest top
  end.
(** :4-30, :33-62 *)
Definition isogenyMap (x y : T) : T * T :=
  let xNum := horner x (nth 0 P []) in
  let xDen := horner x (nth 1 P []) in
  let yNum := horner x (nth 2 P []) in
  let yDen := horner x (nth 3 P []) in
  let xDen := c_inverse C xDen in
  let yDen := c_inverse C yDen in
  let xNum := c_mul C xNum xDen in
  let yNum := c_mul C yNum yDen in
  let yNum := c_mul C yNum y in
  (xNum, yNum).
End Iso.

(** ** HashToCurve *)
Section ToCurve.
Variables (H : bytes -> bytes) (F : fbuild).
(** g2.go:535-551, after the hash: u0, u1 to a point *)
Definition g2_from_u (u0 u1 : fe2) : point fe2 :=
  let '(x0, y0) := swuMapG2 F u0 in
  let '(x1, y1) := swuMapG2 F u1 in
  let p0 := g_Add (C2 F) (mkP x0 y0 fp2_one) (mkP x1 y1 fp2_one) in
  let p0 := g_Affine (C2 F) p0 in
  let '(x, y) := isogenyMap (C2 F) isogenyG2 (px p0) (py p0) in
  let p0 := mkP x y (pz p0) in
  g_Affine (C2 F) (g_MulScalar (C2 F) p0 cofactorEFFG2).
Definition g2_HashToCurve (msg domain : bytes) : outcome (option (point fe2)) :=
  match hashToFp H F msg domain 4 with
  | Panic => Panic
  | Ret (Some [a; b; c; d]) => Ret (Some (g2_from_u (a, b) (c, d)))
  | Ret _ => Ret None
  end.
(** g1.go:547-562 *)
Definition g1_from_u (u0 u1 : fe) : point fe :=
  let '(x0, y0) := swuMapG1 F u0 in
  let '(x1, y1) := swuMapG1 F u1 in
  let p0 := g_Add (C1 F) (mkP x0 y0 r1) (mkP x1 y1 r1) in
  let p0 := g_Affine (C1 F) p0 in
  let '(x, y) := isogenyMap (C1 F) isogenyG1 (px p0) (py p0) in
  let p0 := mkP x y (pz p0) in
  g_Affine (C1 F) (g_MulScalar (C1 F) p0 cofactorEFFG1).
Definition g1_HashToCurve (msg domain : bytes) : outcome (option (point fe)) :=
  match hashToFp H F msg domain 2 with
  | Panic => Panic
  | Ret (Some [a; b]) => Ret (Some (g1_from_u a b))
  | Ret _ => Ret None
  end.
End ToCurve.

(** ** Package bls12_381 *)
Section Scheme.
Variable F : fbuild.
(** [h2c msg tag]: bls.G2.HashToCurve; [pairs_one l]: the pairing product over
    the non-empty list l of affine pairs is one (pairing.go:169-257, modelled
    as ModelBlsGT.eng_Check); [privToPub k]: phoreproject g1pubs.PrivToPub and Serialize on a
    32-byte key, an external package. *)
Variable h2c : bytes -> bytes -> outcome (option (point fe2)).
Variable pairs_one : list (point fe * point fe2) -> bool.
Variable privToPub : bytes -> bytes.

(** pairing.go:54-61 *)
Definition AddPair (l : list (point fe * point fe2)) (p : point fe) (q : point fe2) :=
  if g_IsZero (C1 F) p || g_IsZero (C2 F) q then l
  else l ++ [(g_Affine (C1 F) p, g_Affine (C2 F) q)].
(** pairing.go:243-257 *)
Definition Check (l : list (point fe * point fe2)) : bool :=
  match l with [] => true | _ => pairs_one l end.
(** group.go:106-111; the third point may be a nil pointer, which pairing.go:65
    dereferences *)
Definition ValidatePairing (p1 : point fe) (p2 : point fe2) (p3 : option (point fe)) (p4 : option (point fe2)) : outcome bool :=
  let l := AddPair [] p1 p2 in
  match p3, p4 with
  | Some p3, Some p4 => Ret (Check (AddPair l (g_Neg (C1 F) p3) p4))
  | _, _ => Panic
  end.

(** g2.go:142-152: what is hashed with which tag; None: the point stays blank *)
Definition starts (d m : bytes) : bool := fe_Equals d (firstn (length d) m).
Definition hash_pair (m : bytes) : option (bytes * bytes) :=
  if starts BASIC_SCHEME_DST m then Some (skipn (length BASIC_SCHEME_DST) m, firstn (length BASIC_SCHEME_DST) m)
  else if starts AUG_SCHEME_DST m then Some (skipn (length AUG_SCHEME_DST) m, firstn (length AUG_SCHEME_DST) m)
  else None.
Definition bls_Hash (m : bytes) : outcome (option (point fe2)) :=
  match hash_pair m with
  | Some (msg, tag) => h2c msg tag
  | None => Ret (Some (g_Blank (C2 F)))
  end.

(** bls12-381.go:12-32 *)
Definition isScalarLegal (s : bytes) : bool := negb (bls_order <=? be2z s).
Definition bls_GenPublicKey (k : bytes) : outcome (result bytes) :=
  if negb (Nat.eqb (length k) 32) then Ret (Err ErrOther)
  else if negb (isScalarLegal k) then Ret (Err ErrOther)
  else Ret (Ok (privToPub k)).
(** bls12-381.go:40-49 and drand/kyber sign/bls Sign: x * Hash(msg), marshalled.
    A nil point would be dereferenced *)
Definition bls_Sign (k m : bytes) : outcome (result bytes) :=
  if negb (Nat.eqb (length k) 32) then Ret (Err ErrOther)
  else match bls_Hash m with
       | Ret (Some hm) => Ret (Ok (g_ToCompressed (C2 F) (g_MulScalar (C2 F) hm (be2z k mod bls_order))))
       | _ => Panic
       end.
(** bls12-381.go:51-66 and drand/kyber sign/bls Verify *)
Definition bls_Verify (pub m sig : bytes) : outcome bool :=
  if negb (Nat.eqb (length pub) 48) || Nat.eqb (length m) 0 || negb (Nat.eqb (length sig) 96) then Ret false
  else
    let pk := g_FromCompressed (C1 F) pub in          (* the error is ignored *)
    match bls_Hash m with
    | Panic => Panic
    | Ret hm =>
        match g_FromCompressed (C2 F) sig with
        | None => Ret false
        | Some s => ValidatePairing g1One s pk hm
        end
    end.
(** bls12-381.go:68-73 and drand/kyber sign/bls AggregateSignatures *)
Definition bls_Aggregate (sigs : list bytes) : option bytes :=
  let step acc s :=
    match acc with
    | None => None
    | Some q => match g_FromCompressed (C2 F) s with None => None | Some p => Some (g_Add (C2 F) q p) end
    end in
  match fold_left step sigs (Some (g_Blank (C2 F))) with
  | None => None
  | Some q => Some (g_ToCompressed (C2 F) q)
  end.
End Scheme.

(** ** Behind the dispatcher (eccset.go:49-51, 96-105, 138-140, 176-184) *)
Definition bls_pkg (F : fbuild) h2c pairs_one privToPub : sigpkg :=
  {| sp_genpub := bls_GenPublicKey privToPub;
     sp_sign := fun k m => Some (bls_Sign F h2c k m);
     sp_verify := bls_Verify F h2c pairs_one |}.
Definition runs_bls (F : fbuild) h2c pairs_one privToPub (B : backends) : Prop :=
  bk_bls B = bls_pkg F h2c pairs_one privToPub /\
  (forall l, bk_bls_aggregate B l = Ret (bls_Aggregate F l)).
