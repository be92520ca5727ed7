(** Model of /repo/eddsa/edwards25519/edwards25519.go: the field modulo
    2^255 - 19 on ten int32 limbs, the group operations and the scalar
    arithmetic.  The straight-line limb code is in ModelEdCode.v (generated).
    Pointer parameters are modelled by returned values; an argument that the
    source modifies in place (FeToBytes) is returned as well.  No proofs here. *)
Require Import ZArith List Bool.
Require Import Verif.Base Verif.ModelSlp Verif.ModelEdCode.
Import ListNotations.
Open Scope Z_scope.

Definition fe : Type := list Z.   (* edwards25519.go:17, [10]int32 *)

Fixpoint map2 {A B C} (f : A -> B -> C) (a : list A) (b : list B) : list C :=
  match a, b with x :: a', y :: b' => f x y :: map2 f a' b' | _, _ => [] end.

(* edwards25519.go:21-23, 25-28, FeZero, FeOne *)
Definition FeZero : fe := repeat 0 10.
Definition FeOne : fe := 1 :: repeat 0 9.
(* edwards25519.go:30-41, 43-54, FeAdd, FeSub *)
Definition FeAdd (a b : fe) : fe := map2 (fun x y => i32 (x + y)) a b.
Definition FeSub (a b : fe) : fe := map2 (fun x y => i32 (x - y)) a b.
(* edwards25519.go:60-72, FeCMove *)
Definition FeCMove (f g : fe) (b : Z) : fe :=
  let b := i32 (- b) in map2 (fun x y => Z.lxor x (Z.land b (Z.lxor x y))) f g.
(* edwards25519.go:91-104, FeFromBytes: [ld] is load3/load4 (lines 74-80, 82-89) *)
Definition FeCombine (h : list Z) : fe := map i32 (exec 64 fe_combine_code h). (* lines 219-279, FeCombine *)
Definition FeFromBytes (src : bytes) : fe :=
  FeCombine (map (fun l => Z.shiftl (ld src (fst l)) (snd l)) fe_frombytes_code).
(* edwards25519.go:106-185, FeToBytes; the second component is the argument,
   which the function overwrites *)
Definition fe_q (h : fe) : Z :=
  fold_left (fun q ik => Z.shiftr (i32 (nth (fst ik) h 0 + q)) (snd ik)) fe_tobytes_q
    (Z.shiftr (i32 (i32 (19 * nth 9 h 0) + 2 ^ 24)) 25).
Definition FeToBytes (h : fe) : bytes * fe :=
  let h1 := upd 0 (i32 (nth 0 h 0 + i32 (19 * fe_q h))) h in
  let h2 := exec 32 fe_tobytes_code h1 in
  (out_bytes fe_tobytes_out h2, h2).
(* edwards25519.go:187-191, FeIsNegative *)
Definition FeIsNegative (f : fe) : Z * fe :=
  let '(s, f') := FeToBytes f in (Z.land (nth 0 s 0) 1, f').
(* edwards25519.go:193-204, FeIsNonZero *)
Definition FeIsNonZero (f : fe) : Z :=
  let s := fst (FeToBytes f) in
  let x := fold_left Z.lor s 0 in
  let x := Z.lor x (Z.shiftr x 4) in
  let x := Z.lor x (Z.shiftr x 2) in
  let x := Z.lor x (Z.shiftr x 1) in
  Z.land x 1.
(* edwards25519.go:206-217, FeNeg *)
Definition FeNeg (f : fe) : fe := map (fun x => i32 (- x)) f.
(* edwards25519.go:281-332, FeMul *)
Definition FeMul (f g : fe) : fe := FeCombine (map (ev (f ++ g)) fe_mul_code).
(* edwards25519.go:334-371, 373-376, feSquare and FeSquare *)
Definition feSquare (f : fe) : list Z := map (ev f) fe_square_code.
Definition FeSquare (f : fe) : fe := FeCombine (feSquare f).
(* edwards25519.go:378-393, FeSquare2 *)
Definition FeSquare2 (f : fe) : fe := FeCombine (map (fun x => i64 (x + x)) (feSquare f)).

(** n squarings in a row *)
Fixpoint itn {A} (g : A -> A) (n : nat) (x : A) : A := match n with O => x | S n' => itn g n' (g x) end.
Definition sqn (n : nat) (f : fe) : fe := itn FeSquare n f.

(* edwards25519.go:395-448, FeInvert *)
Definition FeInvert (z : fe) : fe :=
  let t0 := FeSquare z in
  let t1 := sqn 2 t0 in
  let t1 := FeMul z t1 in
  let t0 := FeMul t0 t1 in
  let t2 := FeSquare t0 in
  let t1 := FeMul t1 t2 in
  let t2 := sqn 5 t1 in
  let t1 := FeMul t2 t1 in
  let t2 := sqn 10 t1 in
  let t2 := FeMul t2 t1 in
  let t3 := sqn 20 t2 in
  let t2 := FeMul t3 t2 in
  let t2 := sqn 10 t2 in
  let t1 := FeMul t2 t1 in
  let t2 := sqn 50 t1 in
  let t2 := FeMul t2 t1 in
  let t3 := sqn 100 t2 in
  let t2 := FeMul t3 t2 in
  let t2 := sqn 50 t2 in
  let t1 := FeMul t2 t1 in
  let t1 := sqn 5 t1 in
  FeMul t1 t0.

(* edwards25519.go:450-509, fePow22523 *)
Definition fePow22523 (z : fe) : fe :=
  let t0 := FeSquare z in
  let t1 := sqn 2 t0 in
  let t1 := FeMul z t1 in
  let t0 := FeMul t0 t1 in
  let t0 := FeSquare t0 in
  let t0 := FeMul t1 t0 in
  let t1 := sqn 5 t0 in
  let t0 := FeMul t1 t0 in
  let t1 := sqn 10 t0 in
  let t1 := FeMul t1 t0 in
  let t2 := sqn 20 t1 in
  let t1 := FeMul t2 t1 in
  let t1 := sqn 10 t1 in
  let t0 := FeMul t1 t0 in
  let t1 := sqn 50 t0 in
  let t1 := FeMul t1 t0 in
  let t2 := sqn 100 t1 in
  let t1 := FeMul t2 t1 in
  let t1 := sqn 50 t1 in
  let t0 := FeMul t1 t0 in
  let t0 := sqn 2 t0 in
  FeMul t0 z.

(* edwards25519.go:511-529, the representations of a point *)
Record proj := mkproj { pX : fe; pY : fe; pZ : fe }.
Record ext := mkext { eX : fe; eY : fe; eZ : fe; eT : fe }.
Record comp := mkcomp { cX : fe; cY : fe; cZ : fe; cT : fe }.
Record pre := mkpre { rP : fe; rM : fe; rD : fe }.              (* yPlusX yMinusX xy2d *)
Record cached := mkcached { dP : fe; dM : fe; dZ : fe; dT : fe }.  (* yPlusX yMinusX Z T2d *)

Definition proj_zero : proj := mkproj FeZero FeOne FeOne.        (* lines 531-535 *)
Definition ext_zero : ext := mkext FeZero FeOne FeOne FeZero.    (* lines 561-566 *)
Definition pre_zero : pre := mkpre FeOne FeOne FeZero.           (* lines 656-660 *)

(* edwards25519.go:537-549 *)
Definition proj_double (p : proj) : comp :=
  let rX := FeSquare (pX p) in
  let rZ := FeSquare (pY p) in
  let rT := FeSquare2 (pZ p) in
  let rY := FeAdd (pX p) (pY p) in
  let t0 := FeSquare rY in
  let rY := FeAdd rZ rX in
  let rZ := FeSub rZ rX in
  let rX := FeSub t0 rY in
  let rT := FeSub rT rZ in
  mkcomp rX rY rZ rT.

(** s[31] ^= b << 7 *)
Definition set_sign (s : bytes) (b : Z) : bytes :=
  upd 31 (Z.lxor (nth 31 s 0) (Z.shiftl b 7 mod 256)) s.

(* edwards25519.go:551-559, 587-595 *)
Definition to_bytes (X Y Z : fe) : bytes :=
  let recip := FeInvert Z in
  let x := FeMul X recip in
  let y := FeMul Y recip in
  set_sign (fst (FeToBytes y)) (fst (FeIsNegative x)).
Definition proj_tobytes (p : proj) : bytes := to_bytes (pX p) (pY p) (pZ p).
Definition ext_tobytes (p : ext) : bytes := to_bytes (eX p) (eY p) (eZ p).

(* edwards25519.go:581-585, 568-572, 574-579 *)
Definition ext_toproj (p : ext) : proj := mkproj (eX p) (eY p) (eZ p).
Definition ext_double (p : ext) : comp := proj_double (ext_toproj p).
Definition ext_tocached (p : ext) : cached :=
  mkcached (FeAdd (eY p) (eX p)) (FeSub (eY p) (eX p)) (eZ p) (FeMul (eT p) fe_d2).

(* edwards25519.go:597-641, FromBytes on a point whose limbs are all zero; the
   point is returned also when the result is false *)
Definition ext_frombytes (s : bytes) : bool * ext :=
  let Y := FeFromBytes s in
  let Z := FeOne in
  let u := FeSquare Y in
  let v := FeMul u fe_d in
  let u := FeSub u Z in
  let v := FeAdd v Z in
  let v3 := FeSquare v in
  let v3 := FeMul v3 v in
  let X := FeSquare v3 in
  let X := FeMul X v in
  let X := FeMul X u in
  let X := fePow22523 X in
  let X := FeMul X v3 in
  let X := FeMul X u in
  let vxx := FeSquare X in
  let vxx := FeMul vxx v in
  let fin (X : fe) :=
    let '(neg, X) := FeIsNegative X in
    let X := if neg =? Z.shiftr (nth 31 s 0) 7 then X else FeNeg X in
    (true, mkext X Y Z (FeMul X Y)) in
  if FeIsNonZero (FeSub vxx u) =? 1 then
    if FeIsNonZero (FeAdd vxx u) =? 1 then (false, mkext X Y Z FeZero)
    else fin (snd (FeToBytes (FeMul X fe_sqrtm1)))
  else fin X.

(* edwards25519.go:643-647, 649-654 *)
Definition comp_toproj (p : comp) : proj :=
  mkproj (FeMul (cX p) (cT p)) (FeMul (cY p) (cZ p)) (FeMul (cZ p) (cT p)).
Definition comp_toext (p : comp) : ext :=
  mkext (FeMul (cX p) (cT p)) (FeMul (cY p) (cZ p)) (FeMul (cZ p) (cT p)) (FeMul (cX p) (cY p)).

(* edwards25519.go:662-676, geAdd *)
Definition geAdd (p : ext) (q : cached) : comp :=
  let rX := FeAdd (eY p) (eX p) in
  let rY := FeSub (eY p) (eX p) in
  let rZ := FeMul rX (dP q) in
  let rY := FeMul rY (dM q) in
  let rT := FeMul (dT q) (eT p) in
  let rX := FeMul (eZ p) (dZ q) in
  let t0 := FeAdd rX rX in
  let rX := FeSub rZ rY in
  let rY := FeAdd rZ rY in
  let rZ := FeAdd t0 rT in
  let rT := FeSub t0 rT in
  mkcomp rX rY rZ rT.

(* edwards25519.go:678-692, geSub *)
Definition geSub (p : ext) (q : cached) : comp :=
  let rX := FeAdd (eY p) (eX p) in
  let rY := FeSub (eY p) (eX p) in
  let rZ := FeMul rX (dM q) in
  let rY := FeMul rY (dP q) in
  let rT := FeMul (dT q) (eT p) in
  let rX := FeMul (eZ p) (dZ q) in
  let t0 := FeAdd rX rX in
  let rX := FeSub rZ rY in
  let rY := FeAdd rZ rY in
  let rZ := FeSub t0 rT in
  let rT := FeAdd t0 rT in
  mkcomp rX rY rZ rT.

(* edwards25519.go:694-707, geMixedAdd *)
Definition geMixedAdd (p : ext) (q : pre) : comp :=
  let rX := FeAdd (eY p) (eX p) in
  let rY := FeSub (eY p) (eX p) in
  let rZ := FeMul rX (rP q) in
  let rY := FeMul rY (rM q) in
  let rT := FeMul (rD q) (eT p) in
  let t0 := FeAdd (eZ p) (eZ p) in
  let rX := FeSub rZ rY in
  let rY := FeAdd rZ rY in
  let rZ := FeAdd t0 rT in
  let rT := FeSub t0 rT in
  mkcomp rX rY rZ rT.

(* edwards25519.go:709-722, geMixedSub *)
Definition geMixedSub (p : ext) (q : pre) : comp :=
  let rX := FeAdd (eY p) (eX p) in
  let rY := FeSub (eY p) (eX p) in
  let rZ := FeMul rX (rM q) in
  let rY := FeMul rY (rP q) in
  let rT := FeMul (rD q) (eT p) in
  let t0 := FeAdd (eZ p) (eZ p) in
  let rX := FeSub rZ rY in
  let rY := FeAdd rZ rY in
  let rZ := FeSub t0 rT in
  let rT := FeAdd t0 rT in
  mkcomp rX rY rZ rT.

(* edwards25519.go:724-752, slide.  [slide_carry] is the loop over k, [slide_b]
   the loop over b, [slide_i] the body of the loop over i; every entry of r is
   an int8. *)
Fixpoint slide_carry (fuel k : nat) (r : list Z) : list Z :=
  match fuel with
  | O => r
  | S f => if nth k r 0 =? 0 then upd k 1 r else slide_carry f (S k) (upd k 0 r)
  end.
Fixpoint slide_b (bs : list nat) (i : nat) (r : list Z) : list Z :=
  match bs with
  | [] => r
  | b :: bs' =>
      if (i + b <? 256)%nat then
        if nth (i + b) r 0 =? 0 then slide_b bs' i r
        else
          let sh := i8 (Z.shiftl (nth (i + b) r 0) (Z.of_nat b)) in
          if i8 (nth i r 0 + sh) <=? 15 then
            slide_b bs' i (upd (i + b) 0 (upd i (i8 (nth i r 0 + sh)) r))
          else if -15 <=? i8 (nth i r 0 - sh) then
            slide_b bs' i (slide_carry (256 - (i + b)) (i + b) (upd i (i8 (nth i r 0 - sh)) r))
          else r
      else r
  end.
Definition slide_i (r : list Z) (i : nat) : list Z :=
  if nth i r 0 =? 0 then r else slide_b [1; 2; 3; 4; 5; 6]%nat i r.
Definition slide_init (a : bytes) : list Z :=
  map (fun i => Z.land 1 (Z.shiftr (nth (i / 8) a 0) (Z.of_nat (i mod 8)))) (seq 0 256).
Definition slide (a : bytes) : list Z := fold_left slide_i (seq 0 256) (slide_init a).

(** The table of odd multiples of edwards25519.go:764-772: P, 3P, ..., 15P *)
Fixpoint multiples (n : nat) (A2 : ext) (c : cached) : list cached :=
  c :: match n with
       | O => []
       | S n' => multiples n' A2 (ext_tocached (comp_toext (geAdd A2 c)))
       end.
Definition odd_multiples (A : ext) : list cached :=
  multiples 7 (comp_toext (ext_double A)) (ext_tocached A).

(** One digit of edwards25519.go:785-799 and of 845-859 *)
Definition d0 : cached := mkcached [] [] [] [].
Definition r0 : pre := mkpre [] [] [].
Definition digit_cached (Ai : list cached) (d : Z) (t : comp) : comp :=
  if 0 <? d then geAdd (comp_toext t) (nth (Z.to_nat (d / 2)) Ai d0)
  else if d <? 0 then geSub (comp_toext t) (nth (Z.to_nat ((- d) / 2)) Ai d0)
  else t.
Definition digit_pre (tbl : list pre) (d : Z) (t : comp) : comp :=
  if 0 <? d then geMixedAdd (comp_toext t) (nth (Z.to_nat (d / 2)) tbl r0)
  else if d <? 0 then geMixedSub (comp_toext t) (nth (Z.to_nat ((- d) / 2)) tbl r0)
  else t.

Definition mkpre3 (t : list Z * list Z * list Z) : pre := let '(p, m, d) := t in mkpre p m d.
Definition bi : list pre := map mkpre3 bi_table.
Definition base : list (list pre) := map (map mkpre3) base_table.

(** The digits from the first non-zero pair downwards (lines 776-780) *)
Fixpoint skip0 (l : list (Z * Z)) : list (Z * Z) :=
  match l with
  | (a, b) :: t => if negb (a =? 0) || negb (b =? 0) then l else skip0 t
  | [] => []
  end.
Definition digits (a b : bytes) : list (Z * Z) := skip0 (rev (combine (slide a) (slide b))).

(* edwards25519.go:754-803, GeDoubleScalarMultVartime: [a]A + [b]B *)
Definition GeDoubleScalarMultVartime (a : bytes) (A : ext) (b : bytes) : proj :=
  let Ai := odd_multiples A in
  fold_left (fun r ab => comp_toproj (digit_pre bi (snd ab) (digit_cached Ai (fst ab) (proj_double r))))
    (digits a b) proj_zero.

(* edwards25519.go:805-863, GePointAddVarTime: [a]A + [b]BB *)
Definition GePointAddVarTime (a : bytes) (A : ext) (b : bytes) (BB : ext) : proj :=
  let Ai := odd_multiples A in
  let Bi := odd_multiples BB in
  fold_left (fun r ab => comp_toproj (digit_cached Bi (snd ab) (digit_cached Ai (fst ab) (proj_double r))))
    (digits a b) proj_zero.

(* edwards25519.go:865-869, 871-873, equal and negative *)
Definition equal (b c : Z) : Z := Z.shiftr (((Z.lxor b c) mod 2 ^ 32 - 1) mod 2 ^ 32) 31.
Definition negative (b : Z) : Z := Z.land (Z.shiftr b 31) 1.
(* edwards25519.go:875-879 *)
Definition pre_cmove (t u : pre) (b : Z) : pre :=
  mkpre (FeCMove (rP t) (rP u) b) (FeCMove (rM t) (rM u) b) (FeCMove (rD t) (rD u) b).
(* edwards25519.go:881-894, selectPoint *)
Definition selectPoint (pos : nat) (b : Z) : pre :=
  let bn := negative b in
  let babs := i32 (b - i32 (Z.shiftl (Z.land (i32 (- bn)) b) 1)) in
  let t := fold_left (fun t i => pre_cmove t (nth i (nth pos base []) r0) (equal babs (Z.of_nat i + 1)))
             (seq 0 8) pre_zero in
  pre_cmove t (mkpre (rM t) (rP t) (FeNeg (rD t))) bn.

(* edwards25519.go:897-910, the signed radix-16 digits; e is [64]int8 *)
Fixpoint recode (e : list Z) (carry : Z) : list Z :=
  match e with
  | [] => []
  | [x] => [i8 (x + carry)]
  | x :: t =>
      let x := i8 (x + carry) in
      let carry := Z.shiftr (i8 (x + 8)) 4 in
      i8 (x - i8 (Z.shiftl carry 4)) :: recode t carry
  end.
Definition nibbles (a : bytes) : list Z :=
  flat_map (fun v => [Z.land v 15; Z.land (Z.shiftr v 4) 15]) a.

(** selectPoint; geMixedAdd; ToExtended (lines 916-918 and 933-935) *)
Definition base_step (e : list Z) (h : ext) (i : nat) : ext :=
  comp_toext (geMixedAdd h (selectPoint (i / 2) (nth i e 0))).

(* edwards25519.go:896-937, GeScalarMultBase *)
Definition GeScalarMultBase (a : bytes) : ext :=
  let e := recode (nibbles a) 0 in
  let h := fold_left (base_step e) (map (fun i => 2 * i + 1)%nat (seq 0 32)) ext_zero in
  let s := comp_toproj (ext_double h) in
  let s := comp_toproj (proj_double s) in
  let s := comp_toproj (proj_double s) in
  let h := comp_toext (proj_double s) in
  fold_left (base_step e) (map (fun i => 2 * i)%nat (seq 0 32)) h.

(* edwards25519.go:939-1362, ScMulAdd *)
Definition ScMulAdd (a b c : bytes) : bytes :=
  let x := map (ld a) sc_loads12 ++ map (ld b) sc_loads12 ++ map (ld c) sc_loads12 in
  out_bytes sc_out (exec 64 sc_muladd_code (map (ev x) sc_muladd_prods)).

(* edwards25519.go:1364-1680, ScReduce *)
Definition ScReduce (s : bytes) : bytes :=
  out_bytes sc_out (exec 64 sc_reduce_code (map (ld s) sc_reduce_loads)).
