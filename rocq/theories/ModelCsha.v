(** Model of eddsa/curve25519_sha256.go (signatures behind ECC_CURVE_CURVE25519_SHA256).
    A long10 is a list of ten int64; byte slices are lists.  The functions that
    write into a slice return its new contents.  Loop counters and the carries of
    the byte arithmetic (mulaSmall, mula32, divmod) are Go ints of a few dozen bits
    at most; their wrap-around is not written.  No proofs in this file. *)
From Coq Require Import ZArith List Bool.
From Verif Require Import Base ModelSlp ModelCshaCode ModelECDSA ModelApi.
Import ListNotations.
Local Open Scope Z_scope.

Definition long10 := list Z.

(** ** Field code *)
(** The rows of an unrolled function, then its last three statements *)
Fixpoint cs_rows (vars : list Z) (rs : list (ex * Z * nat)) (c : Z) (out : long10) : Z * long10 :=
  match rs with
  | [] => (c, out)
  | (e, k, o) :: r =>
      let t := ev (vars ++ [c]) e in
      cs_rows vars r (Z.shiftr t k) (upd o (Z.land t (2 ^ k - 1)) out)
  end.
Definition cs_final (co : Z * long10) : long10 :=
  let '(c, out) := co in
  let t := i64 (c + nth 8 out 0) in
  let out := upd 8 (Z.land t (2 ^ 26 - 1)) out in
  upd 9 (i64 (nth 9 out 0 + Z.shiftr t 26)) out.
Definition zero10 : long10 := repeat 0 10.
Definition cs_mulSmall (x : long10) (y : Z) : long10 := cs_final (cs_rows (x ++ [y]) cs_mulSmall_rows 0 zero10).   (* :318-342 *)
Definition cs_mul (x y : long10) : long10 := cs_final (cs_rows (x ++ y) cs_mul_rows 0 zero10).                    (* :344-368 *)
Definition cs_sqr (x : long10) : long10 := cs_final (cs_rows x cs_sqr_rows 0 zero10).                             (* :370-394 *)
(* :292-303, :305-316 *)
Definition cs_add (x y : long10) : long10 := map (fun p => i64 (fst p + snd p)) (combine x y).
Definition cs_sub (x y : long10) : long10 := map (fun p => i64 (fst p - snd p)) (combine x y).
(* :279-290 *)
Definition cs_set (v : Z) : long10 := v :: repeat 0 9.
(** x[0] += v *)
Definition cs_add0 (x : long10) (v : Z) : long10 := upd 0 (i64 (nth 0 x 0 + v)) x.

Definition p25m : Z := 33554431.  (* :111-112, p25 and p26 *)
Definition p26m : Z := 67108863.
(* :207-209 *)
Definition cs_isOverflow (x : long10) : bool :=
  let g i := nth i x 0 in
  ((p26m - 19 <? g 0%nat)
   && (Z.land (Z.land (Z.land (Z.land (g 1%nat) (g 3%nat)) (g 5%nat)) (g 7%nat)) (g 9%nat) =? p25m)
   && (Z.land (Z.land (Z.land (g 2%nat) (g 4%nat)) (g 6%nat)) (g 8%nat) =? p26m))
  || (p25m <? g 9%nat).
(* :211-264; the four bytes written from t *)
Definition four (t : Z) : bytes := map (fun j => Z.shiftr t j mod 256) [0; 8; 16; 24].
Definition cs_pack (x : long10) : bytes :=
  let g i := nth i x 0 in
  let ld := (if cs_isOverflow x then 1 else 0) - (if g 9%nat <? 0 then 1 else 0) in
  let ud := ld * - (p25m + 1) in
  let ld := ld * 19 in
  let t0 := i64 (i64 (ld + g 0%nat) + i64 (Z.shiftl (g 1%nat) 26)) in
  let t1 := i64 (Z.shiftr t0 32 + i64 (Z.shiftl (g 2%nat) 19)) in
  let t2 := i64 (Z.shiftr t1 32 + i64 (Z.shiftl (g 3%nat) 13)) in
  let t3 := i64 (Z.shiftr t2 32 + i64 (Z.shiftl (g 4%nat) 6)) in
  let t4 := i64 (i64 (Z.shiftr t3 32 + g 5%nat) + i64 (Z.shiftl (g 6%nat) 25)) in
  let t5 := i64 (Z.shiftr t4 32 + i64 (Z.shiftl (g 7%nat) 19)) in
  let t6 := i64 (Z.shiftr t5 32 + i64 (Z.shiftl (g 8%nat) 12)) in
  let t7 := i64 (Z.shiftr t6 32 + i64 (Z.shiftl (i64 (g 9%nat + ud)) 6)) in
  four t0 ++ four t1 ++ four t2 ++ four t3 ++ four t4 ++ four t5 ++ four t6 ++ four t7.
(* :463-469 *)
Definition cs_isNegative (x : long10) : Z :=
  let tmp := if cs_isOverflow x || (nth 9 x 0 <? 0) then 1 else 0 in
  Z.lxor tmp (Z.land (nth 0 x 0) 1).

(** n times the two squarings of a loop body *)
Fixpoint cs_sqr_n (n : nat) (x : long10) : long10 := match n with O => x | S n => cs_sqr_n n (cs_sqr x) end.
(* :396-461; the last branch is chosen by sqrtassist *)
Definition cs_recip_t (x : long10) : long10 * long10 :=     (* t0 and t2 before the last if *)
  let t1 := cs_sqr x in
  let t2 := cs_sqr t1 in
  let t0 := cs_sqr t2 in
  let t2 := cs_mul t0 x in
  let t0 := cs_mul t2 t1 in
  let t1 := cs_sqr t0 in
  let t3 := cs_mul t1 t2 in
  let t1 := cs_sqr_n 5 t3 in
  let t2 := cs_mul t1 t3 in
  let t3 := cs_sqr_n 10 t2 in
  let t1 := cs_mul t3 t2 in
  let t4 := cs_sqr_n 20 t1 in
  let t3 := cs_mul t4 t1 in
  let t3 := cs_sqr_n 10 t3 in
  let t1 := cs_mul t3 t2 in
  let t3 := cs_sqr_n 50 t1 in
  let t2 := cs_mul t3 t1 in
  let t4 := cs_sqr_n 100 t2 in
  let t3 := cs_mul t4 t2 in
  let t3 := cs_sqr_n 50 t3 in
  let t2 := cs_mul t3 t1 in
  (t0, cs_sqr_n 2 t2).
Definition cs_recip (x : long10) : long10 :=                (* sqrtassist = 0 *)
  let '(t0, t2) := cs_recip_t x in cs_mul (cs_sqr_n 3 t2) t0.
Definition cs_recip1 (x : long10) : long10 :=               (* sqrtassist = 1 *)
  let '(_, t2) := cs_recip_t x in cs_mul x t2.
(* :471-480 *)
Definition cs_sqrt (u : long10) : long10 :=
  let t1 := cs_add u u in
  let v := cs_recip1 t1 in
  let x := cs_sqr v in
  let t2 := cs_add0 (cs_mul t1 x) (-1) in
  let t1 := cs_mul v t2 in
  cs_mul u t1.

(** ** Curve code *)
(* :482-495: from the sums and differences of both points to the new (ax, az) *)
Definition cs_montAdd (t1 t2 t3 t4 dx : long10) : long10 * long10 :=
  let ax := cs_mul t2 t3 in
  let az := cs_mul t1 t4 in
  let t1 := cs_add ax az in
  let t2 := cs_sub ax az in
  let ax := cs_sqr t1 in
  let t1 := cs_sqr t2 in
  (ax, cs_mul t1 dx).
(* :497-505 *)
Definition cs_montDbl (t3 t4 : long10) : long10 * long10 :=
  let t1 := cs_sqr t3 in
  let t2 := cs_sqr t4 in
  let bx := cs_mul t1 t2 in
  let t2 := cs_sub t1 t2 in
  let bz := cs_mulSmall t2 121665 in
  let t1 := cs_add t1 bz in
  (bx, cs_mul t1 t2).
(* :507-513: y2 *)
Definition cs_xToY2 (x : long10) : long10 :=
  let t := cs_sqr x in
  let y2 := cs_mulSmall x 486662 in
  let t := cs_add0 (cs_add t y2) 1 in
  cs_mul t x.

Definition xz := (long10 * long10)%type.
(* :540-552, one round: [s0], [s1] are the points with index 0 and 1 *)
Definition cs_round (dx : long10) (bit : bool) (s : xz * xz) : xz * xz :=
  let '(s0, s1) := s in
  let '(a, b) := if bit then (s0, s1) else (s1, s0) in
  let t1 := cs_add (fst a) (snd a) in let t2 := cs_sub (fst a) (snd a) in
  let t3 := cs_add (fst b) (snd b) in let t4 := cs_sub (fst b) (snd b) in
  let a' := cs_montAdd t1 t2 t3 t4 dx in
  let b' := cs_montDbl t3 t4 in
  if bit then (a', b') else (b', a').
(** the bits of k, most significant first (:538-541) *)
Definition bit_of (k : bytes) (i : nat) : bool := Z.testbit (nth (i / 8) k 0) (Z.of_nat (i mod 8)).
Definition bits_of (k : bytes) : list bool := map (fun i => bit_of k (255 - i)) (seq 0 256).
(* :527-554 *)
Definition cs_ladder (dx : long10) (k : bytes) : xz * xz :=
  fold_left (fun s b => cs_round dx b s) (bits_of k) ((cs_set 1, cs_set 0), (dx, cs_set 1)).

(** ** Byte arithmetic *)
(** the loop of mulaSmall: digits q, digits x, multiplier z, carry v *)
Fixpoint mula_seg (q x : bytes) (z v : Z) : bytes * Z :=
  match q, x with
  | qi :: q', xi :: x' =>
      let v := v + qi + z * xi in
      let '(r, c) := mula_seg q' x' z (Z.shiftr v 8) in
      (v mod 256 :: r, c)
  | _, _ => ([], v)
  end.
(* :151-159: p[m .. m+n) is replaced; the carry is returned *)
Definition mulaSmall (p q : bytes) (m : nat) (x : bytes) (n : nat) (z : Z) : bytes * Z :=
  let '(r, c) := mula_seg (firstn n (skipn m q)) (firstn n x) z 0 in
  (firstn m p ++ r ++ skipn (m + n) p, c).
(* :161-171: the loop from row i on, with carry w; then the last statement *)
Fixpoint mula32_loop (cnt i : nat) (p x y : bytes) (z w : Z) : bytes :=
  match cnt with
  | O => upd (i + 31) ((w + nth (i + 31) p 0) mod 256) p
  | S cnt =>
      let zy := z * nth i y 0 in
      let '(p1, c) := mulaSmall p p i x 31 zy in
      let w := w + c + nth (i + 31) p 0 + zy * nth 31 x 0 in
      mula32_loop cnt (S i) (upd (i + 31) (w mod 256) p1) x y z (Z.shiftr w 8)
  end.
Definition mula32 (p x y : bytes) (t : nat) (z : Z) : bytes := mula32_loop t 0 p x y z 0.
(* :173-192: the loop body at index n, and the loop from cnt further indices above t - 1 *)
Fixpoint divmod_loop (cnt : nat) (q r d : bytes) (t : nat) (dt rn : Z) : bytes * bytes * Z :=
  match cnt with
  | O => (q, r, rn)
  | S cnt =>
      let n := (cnt + t - 1)%nat in
      let z := Z.lor (Z.shiftl rn 16) (Z.shiftl (nth n r 0) 8) in
      let z := if Nat.ltb 0 n then Z.lor z (nth (n - 1) r 0) else z in
      let z := Z.quot z dt in
      let '(r, c) := mulaSmall r r (n + 1 - t) d t (- z) in
      let rn := rn + c in
      let q := upd (n + 1 - t) ((z + rn) mod 256) q in
      let '(r, _) := mulaSmall r r (n + 1 - t) d t (- rn) in
      let rn := nth n r 0 in
      let r := upd n 0 r in
      divmod_loop cnt q r d t dt rn
  end.
(** the new q and r *)
Definition divmod (q r : bytes) (n : nat) (d : bytes) (t : nat) : bytes * bytes :=
  let dt := Z.shiftl (nth (t - 1) d 0) 8 in
  let dt := if Nat.ltb 1 t then Z.lor dt (nth (t - 2) d 0) else dt in
  let '(q, r, rn) := divmod_loop (n - (t - 1)) q r d t dt 0 in
  (q, upd (t - 1) (rn mod 256) r).
(* :777-784 *)
Fixpoint numsize (x : bytes) (n : nat) : nat :=
  match n with O => O | S i => if nth i x 0 =? 0 then numsize x i else n end.
(* :786-819; None: the loop has not ended within the fuel *)
Fixpoint egcd_loop (fuel : nat) (x y a b tmp : bytes) (an bn : nat) : option bytes :=
  match fuel with
  | O => None
  | S fuel =>
      let qn := (bn - an + 1)%nat in
      let '(tmp, b) := divmod tmp b bn a an in
      let bn := numsize b bn in
      if Nat.eqb bn 0 then Some x
      else
        let y := mula32 y x tmp qn (-1) in
        let qn := (an - bn + 1)%nat in
        let '(tmp, a) := divmod tmp a an b bn in
        let an := numsize a an in
        if Nat.eqb an 0 then Some y
        else let x := mula32 x y tmp qn (-1) in egcd_loop fuel x y a b tmp an bn
  end.
Definition egcd32 (a b : bytes) : option bytes :=
  let x := 1 :: repeat 0 63 in
  let y := repeat 0 64 in
  let an := numsize a 32 in
  if Nat.eqb an 0 then Some y else egcd_loop 256 x y a b (repeat 0 32) an 32.

(* :120-136 *)
Definition cs_order : bytes :=
  [237; 211; 245; 92; 26; 99; 18; 88; 214; 156; 247; 162; 222; 249; 222; 20] ++ repeat 0 15 ++ [16].
Definition cs_orderTimes8 : bytes :=
  [104; 159; 174; 231; 210; 24; 147; 192; 178; 230; 188; 23; 245; 206; 247; 166] ++ repeat 0 15 ++ [128].
Definition baseR2y : long10 := [5744; 8160848; 4790893; 13779497; 35730846; 12541209; 49101323; 30047407; 40071253; 6226132].
Definition base2y : long10 := [39999547; 18689728; 59995525; 1648697; 57546132; 24010086; 19059592; 5425144; 63499247; 16420658].

(* :140-144; in place *)
Definition cs_clamp (k : bytes) : bytes :=
  let k := upd 31 (Z.land (nth 31 k 0) 0x7F) k in
  let k := upd 31 (Z.lor (nth 31 k 0) 0x40) k in
  upd 0 (Z.land (nth 0 k 0) 0xF8) k.
(* :556-558: Px *)
Definition cs_core_x (lad : xz * xz) : long10 :=
  let '(s0, _) := lad in cs_mul (fst s0) (cs_recip (snd s0)).
(* :561-592: s *)
Definition cs_core_s (k : bytes) (lad : xz * xz) : option bytes :=
  let '(_, s1) := lad in
  let dx := cs_core_x lad in
  let t1 := cs_xToY2 dx in
  let t3 := cs_recip (snd s1) in
  let t2 := cs_mul (fst s1) t3 in
  let t2 := cs_add t2 dx in
  let t2 := cs_add0 t2 (9 + 486662) in
  let dx := cs_add0 dx (-9) in
  let t3 := cs_sqr dx in
  let dx := cs_mul t2 t3 in
  let dx := cs_sub dx t1 in
  let dx := cs_add0 dx (-39420360) in
  let t1 := cs_mul dx baseR2y in
  let s := if negb (cs_isNegative t1 =? 0) then k else fst (mulaSmall (repeat 0 32) cs_orderTimes8 0 k 32 (-1)) in
  match egcd32 s cs_order with
  | None => None
  | Some e =>
      let s := firstn 32 e in
      Some (if negb (Z.land (nth 31 s 0) 0x80 =? 0) then fst (mulaSmall s s 0 cs_order 32 1) else s)
  end.
(* :146-149 with base point 9: the key after clamping, P, and s *)
Definition cs_Keygen (k : bytes) : bytes * bytes * option bytes :=
  let k := cs_clamp k in
  let lad := cs_ladder (cs_set 9) k in
  (k, cs_pack (cs_core_x lad), cs_core_s k lad).
(* :595-620, Sign: v *)
Definition cs_Sign (h x s : bytes) : bytes :=
  let '(_, h1) := divmod (repeat 0 32) h 32 cs_order 32 in
  let '(_, x1) := divmod (repeat 0 32) x 32 cs_order 32 in
  let '(v, _) := mulaSmall (repeat 0 32) x1 0 h1 32 (-1) in
  let '(v, _) := mulaSmall v v 0 cs_order 32 1 in
  let tmp1 := mula32 (repeat 0 64) v s 32 1 in
  let '(_, tmp1) := divmod (repeat 0 64) tmp1 64 cs_order 32 in
  firstn 32 tmp1.

(** ** Verify :622-746 *)
(* :665-683; the aliased mulSmall reads each limb before writing it: X(P+G) and X(P-G) *)
Definition cs_sums (P : long10) : long10 * long10 :=
  let t2_0 := cs_xToY2 P in
  let t1_0 := cs_sqrt t2_0 in
  let j := cs_isNegative t1_0 in
  let t2_0 := cs_add0 t2_0 39420360 in
  let t2_1 := cs_mul base2y t1_0 in
  let m := cs_sub t2_0 t2_1 in
  let a := cs_add t2_0 t2_1 in
  let '(t1_0, t1_1) := if j =? 0 then (m, a) else (a, m) in
  let t2_0 := cs_add0 P (-9) in
  let t2_1 := cs_sqr t2_0 in
  let t2_0 := cs_recip t2_1 in
  let s0 := cs_add0 (cs_sub (cs_mul t1_0 t2_0) P) (- (9 + 486662)) in
  let s1 := cs_add0 (cs_sub (cs_mul t1_1 t2_0) P) (- (9 + 486662)) in
  (cs_mulSmall s0 1, cs_mulSmall s1 1).
(* :686-699: one byte; (vi, hi, di, nvh) and the byte stored *)
Definition cs_prep (st : Z * Z * Z * Z) (vb hb : Z) : (Z * Z * Z * Z) * Z :=
  let '(vi, hi, di, _) := st in
  let vi := Z.lxor (Z.lxor (Z.shiftr vi 8) vb) (Z.shiftl vb 1) in
  let hi := Z.lxor (Z.lxor (Z.shiftr hi 8) hb) (Z.shiftl hb 1) in
  let nvh := Z.lnot (Z.lxor vi hi) in
  let di := Z.lxor (Z.land nvh (Z.shiftr (Z.land di 0x80) 7)) vi in
  let di := fold_left (fun di m => Z.lxor di (Z.land nvh (Z.shiftl (Z.land di m) 1)))
              [0x01; 0x02; 0x04; 0x08; 0x10; 0x20; 0x40] di in
  ((vi, hi, di, nvh), di mod 256).
Fixpoint cs_preps (st : Z * Z * Z * Z) (v h : bytes) : (Z * Z * Z * Z) * bytes :=
  match v, h with
  | vb :: v', hb :: h' =>
      let '(st, d) := cs_prep st vb hb in
      let '(st, ds) := cs_preps st v' h' in (st, d :: ds)
  | _, _ => (st, [])
  end.
(* :727-737: one round; di, vi, hi shifted right by j have their two lowest bits here *)
Definition cs_vround (P S0 S1 : long10) (vj hj dj : Z) (y : xz * xz * xz) : xz * xz * xz :=
  let '(y0, y1, y2) := y in
  let t10 := cs_add (fst y0) (snd y0) in let t20 := cs_sub (fst y0) (snd y0) in
  let t11 := cs_add (fst y1) (snd y1) in let t21 := cs_sub (fst y1) (snd y1) in
  let t12 := cs_add (fst y2) (snd y2) in let t22 := cs_sub (fst y2) (snd y2) in
  let k := Z.land (Z.lxor vj (Z.shiftr vj 1)) 1 + Z.land (Z.lxor hj (Z.shiftr hj 1)) 1 in
  let y0' := if k =? 0 then cs_montDbl t10 t20 else if k =? 1 then cs_montDbl t11 t21 else cs_montDbl t12 t22 in
  let k := Z.lxor (Z.land dj 2) (Z.shiftl (Z.land dj 1) 1) in
  let D := if Z.land dj 1 =? 0 then cs_set 9 else P in
  let y1' := if k =? 0 then cs_montAdd t11 t21 t10 t20 D else cs_montAdd t11 t21 t12 t22 D in
  let S := if Z.shiftr (Z.land (Z.lxor vj hj) 2) 1 =? 0 then S0 else S1 in
  let y2' := cs_montAdd t12 t22 t10 t20 S in
  (y0', y1', y2').
(* :721-739: for i = 31 .. 0, for j = 7 .. 0; vi, hi, di only matter in their low nine bits *)
Definition cs_vbyte (P S0 S1 : long10) (st : Z * Z * Z * (xz * xz * xz)) (b : Z * Z * Z) : Z * Z * Z * (xz * xz * xz) :=
  let '(vi, hi, di, y) := st in
  let '(vb, hb, db) := b in
  let vi := i64 (Z.lor (Z.shiftl vi 8) vb) in
  let hi := i64 (Z.lor (Z.shiftl hi 8) hb) in
  let di := i64 (Z.lor (Z.shiftl di 8) db) in
  (vi, hi, di, fold_left (fun y j => cs_vround P S0 S1 (Z.shiftr vi j) (Z.shiftr hi j) (Z.shiftr di j) y) [7; 6; 5; 4; 3; 2; 1; 0] y).
Definition cs_Verify (v h pub : bytes) : bytes :=
  let P := cs_unpack pub in
  let '(S0, S1) := cs_sums P in
  let '(st, d) := cs_preps (0, 0, 0, 0) v h in
  let '(vi, _, di, nvh) := st in
  let di := Z.shiftr (Z.lxor (Z.land nvh (Z.shiftl (Z.land di 0x80) 1)) vi) 8 in
  let y := ((cs_set 1, cs_set 0), ((if di =? 0 then cs_set 9 else P), cs_set 1), (S0, cs_set 1)) in
  let '(vi, hi, _, (y0, y1, y2)) :=
    fold_left (cs_vbyte P S0 S1) (rev (combine (combine v h) d)) (0, 0, di, y) in
  let k := Z.land vi 1 + Z.land hi 1 in
  let yk := if k =? 0 then y0 else if k =? 1 then y1 else y2 in
  cs_pack (cs_mul (fst yk) (cs_recip (snd yk))).

(* :748-775 *)
Definition cs_canonical_sig (v : bytes) : bool :=
  let '(_, c) := divmod (repeat 0 32) (firstn 32 v) 32 cs_order 32 in
  if list_eq_dec Z.eq_dec (firstn 32 v) c then true else false.
Definition cs_canonical_pub (p : bytes) : bool :=
  Nat.eqb (length p) 32 && (if list_eq_dec Z.eq_dec (cs_pack (cs_unpack p)) p then true else false).

(** ** The exported functions :20-106, with the key the caller holds afterwards *)
Section Sha.
Variable H : bytes -> bytes.      (* crypto/sha256 *)
Definition csha_genPub (prikey : bytes) : result bytes * bytes :=
  if negb (Nat.eqb (length prikey) 32) then (Err ErrOther, prikey)
  else let '(k, P, _) := cs_Keygen prikey in (Ok P, k).
(** None: egcd32 has not ended within its fuel *)
Definition csha_sign (prikey msg : bytes) : option (result bytes * bytes) :=
  if negb (Nat.eqb (length prikey) 32) then Some (Err ErrOther, prikey)
  else
    let '(k, _, s) := cs_Keygen prikey in
    match s with
    | None => None
    | Some s =>
        let m := H msg in
        let x := H (m ++ s) in
        let '(x, Y, _) := cs_Keygen x in
        let h := H (m ++ Y) in
        Some (Ok (cs_Sign h x s ++ h), k)
    end.
Definition csha_verify (pub msg sig : bytes) : bool :=
  if negb (Nat.eqb (length sig) 64) || negb (Nat.eqb (length pub) 32) || Nat.eqb (length msg) 0 then false
  else if negb (cs_canonical_sig sig) then false
  else if negb (cs_canonical_pub pub) then false
  else
    let v := firstn 32 sig in
    let h := skipn 32 sig in
    let Y := cs_Verify v h pub in
    let h2 := H (H msg ++ Y) in
    if list_eq_dec Z.eq_dec h h2 then true else false.
End Sha.

(** Behind the dispatcher (eccset.go:38-40, 84-86, 165-167) *)
Definition csha_pkg (H : bytes -> bytes) : sigpkg :=
  {| sp_genpub := fun k => Ret (fst (csha_genPub k));
     sp_sign := fun k m => match csha_sign H k m with None => None | Some (r, _) => Some (Ret r) end;
     sp_verify := fun p m s => Ret (csha_verify H p m s) |}.
