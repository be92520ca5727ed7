(** The target field of the BLS12-381 pairing and the pairing engine: fp6.go, fp12.go,
    gt.go and pairing.go of bls12_381/bls.
    Simplifications: a Go function writing through its first argument is a function
    returning the written value.  All functions below but fp6.frobeniusMap with
    power 3 modulo 6 (left out: no caller) read each coordinate of an argument before
    writing it, so a result that aliases an argument changes nothing.  The xxxAssign
    variants of fp2 and fp6 have the same bodies as the variants with a target and
    share their model.  Temporaries are local. *)
From Coq Require Import ZArith List Bool.
From Verif Require Import Base ModelBlsF ModelBls.
Import ListNotations.
Local Open Scope Z_scope.

(** field_element.go:13-14 *)
Record fe6 := mk6 { e0 : fe2; e1 : fe2; e2 : fe2 }.
Record fe12 := mk12 { d0 : fe6; d1 : fe6 }.

(** bls12_381.go:32 *)
Definition twoInv : fe := [1730508156817200468; 9606178027640717313; 7150789853162776431; 7936136305760253186; 15245073033536294050; 1728177566264616342].
(** bls12_381.go:145-170 *)
Definition frobeniusCoeffs61 : list fe2 :=
   [ ([8505329371266088957; 17002214543764226050; 6865905132761471162; 8632934651105793861; 6631298214892334189; 1582556514881692819],
      [0; 0; 0; 0; 0; 0]);
     ([0; 0; 0; 0; 0; 0],
      [14772873186050699377; 6749526151121446354; 6372666795664677781; 10283423008382700446; 286397964926079186; 1796971870900422465]);
     ([3526659474838938856; 17562030475567847978; 1632777218702014455; 14009062335050482331; 3906511377122991214; 368068849512964448],
      [0; 0; 0; 0; 0; 0]);
     ([0; 0; 0; 0; 0; 0],
      [8505329371266088957; 17002214543764226050; 6865905132761471162; 8632934651105793861; 6631298214892334189; 1582556514881692819]);
     ([14772873186050699377; 6749526151121446354; 6372666795664677781; 10283423008382700446; 286397964926079186; 1796971870900422465],
      [0; 0; 0; 0; 0; 0]);
     ([0; 0; 0; 0; 0; 0],
      [3526659474838938856; 17562030475567847978; 1632777218702014455; 14009062335050482331; 3906511377122991214; 368068849512964448]) ].
(** bls12_381.go:172-197 *)
Definition frobeniusCoeffs62 : list fe2 :=
   [ ([8505329371266088957; 17002214543764226050; 6865905132761471162; 8632934651105793861; 6631298214892334189; 1582556514881692819],
      [0; 0; 0; 0; 0; 0]);
     ([9875771541238924739; 3094855109658912213; 5802897354862067244; 11677019699073781796; 1505592401347711080; 1505729768134575418],
      [0; 0; 0; 0; 0; 0]);
     ([14772873186050699377; 6749526151121446354; 6372666795664677781; 10283423008382700446; 286397964926079186; 1796971870900422465],
      [0; 0; 0; 0; 0; 0]);
     ([4897101644811774638; 3654671041462534141; 569769440802610537; 17053147383018470266; 17227549637287919721; 291242102765847046],
      [0; 0; 0; 0; 0; 0]);
     ([3526659474838938856; 17562030475567847978; 1632777218702014455; 14009062335050482331; 3906511377122991214; 368068849512964448],
      [0; 0; 0; 0; 0; 0]);
     ([17076301903736715834; 13907359434105313836; 1063007777899403918; 15402659025741563681; 5125705813544623108; 76826746747117401],
      [0; 0; 0; 0; 0; 0]) ].
(** bls12_381.go:199-248 *)
Definition frobeniusCoeffs12 : list fe2 :=
   [ ([8505329371266088957; 17002214543764226050; 6865905132761471162; 8632934651105793861; 6631298214892334189; 1582556514881692819],
      [0; 0; 0; 0; 0; 0]);
     ([506819140503852133; 14297063575771579155; 10946065744702939791; 11771194236670323182; 2081670087578406477; 644615147456521963],
      [12895611875574011462; 6359822009455181036; 14936352902570693524; 13914887797453940944; 3330433690892295817; 1229183470191017903]);
     ([17076301903736715834; 13907359434105313836; 1063007777899403918; 15402659025741563681; 5125705813544623108; 76826746747117401],
      [0; 0; 0; 0; 0; 0]);
     ([4480897313486445265; 4797496051193971075; 4046559893315008306; 10569151167044009496; 2123814803385151673; 852749317591686856],
      [8921533702591418330; 15859389534032789116; 3389114680249073393; 15116930867080254631; 3288288975085550621; 1021049300055853010]);
     ([3526659474838938856; 17562030475567847978; 1632777218702014455; 14009062335050482331; 3906511377122991214; 368068849512964448],
      [0; 0; 0; 0; 0; 0]);
     ([3974078172982593132; 8947176549131943536; 11547238222321620130; 17244701004083237929; 42144715806745195; 208134170135164893],
      [9428352843095270463; 11709709036094816655; 14335180424952013185; 8441381030041026197; 5369959062663957099; 1665664447512374973]);
     ([4897101644811774638; 3654671041462534141; 569769440802610537; 17053147383018470266; 17227549637287919721; 291242102765847046],
      [0; 0; 0; 0; 0; 0]);
     ([12895611875574011462; 6359822009455181036; 14936352902570693524; 13914887797453940944; 3330433690892295817; 1229183470191017903],
      [506819140503852133; 14297063575771579155; 10946065744702939791; 11771194236670323182; 2081670087578406477; 644615147456521963]);
     ([14772873186050699377; 6749526151121446354; 6372666795664677781; 10283423008382700446; 286397964926079186; 1796971870900422465],
      [0; 0; 0; 0; 0; 0]);
     ([8921533702591418330; 15859389534032789116; 3389114680249073393; 15116930867080254631; 3288288975085550621; 1021049300055853010],
      [4480897313486445265; 4797496051193971075; 4046559893315008306; 10569151167044009496; 2123814803385151673; 852749317591686856]);
     ([9875771541238924739; 3094855109658912213; 5802897354862067244; 11677019699073781796; 1505592401347711080; 1505729768134575418],
      [0; 0; 0; 0; 0; 0]);
     ([9428352843095270463; 11709709036094816655; 14335180424952013185; 8441381030041026197; 5369959062663957099; 1665664447512374973],
      [3974078172982593132; 8947176549131943536; 11547238222321620130; 17244701004083237929; 42144715806745195; 208134170135164893]) ].
(** bls12_381.go:254 *)
Definition x_abs : Z := 0xd201000000010000.

Section Tower.
Variable F : fbuild.
Notation add2 := (fp2_add F). Notation sub2 := (fp2_sub F). Notation mul2 := (fp2_mul F).
Notation double2 := (fp2_double F). Notation neg2 := (fp2_neg F). Notation square2 := (fp2_square F).

(** ** fp2.go, the functions used above it *)
(** :191-196 *)
Definition fp2_mulByNonResidue (a : fe2) : fe2 := (f_sub F (fst a) (snd a), f_add F (fst a) (snd a)).
(** :198-206 *)
Definition fp2_mulByB (a : fe2) : fe2 :=
  let t0 := f_double F (fst a) in
  let t1 := f_double F (snd a) in
  let t0 := f_double F t0 in
  let t1 := f_double F t1 in
  (f_sub F t0 t1, f_add F t0 t1).
(** :219-222 *)
Definition fp2_mulByFq (a : fe2) (b : fe) : fe2 := (f_mul F (fst a) b, f_mul F (snd a) b).
(** :241-255 *)
Definition fp2_frobeniousMap (a : fe2) (power : Z) : fe2 :=
  if power mod 2 =? 1 then (fst a, f_neg F (snd a)) else a.
Notation nr2 := fp2_mulByNonResidue.

(** ** fp6.go *)
(** :34-61 *)
Definition fp6_fromBytes (b : bytes) : option fe6 :=
  if (length b <? 288)%nat then None
  else match fp2_fromBytes F (firstn 96 b) with
       | None => None
       | Some u2 => match fp2_fromBytes F (firstn 96 (skipn 96 b)) with
         | None => None
         | Some u1 => match fp2_fromBytes F (skipn 192 b) with
           | None => None
           | Some u0 => Some (mk6 u0 u1 u2)
           end end end.
Definition fp6_toBytes (a : fe6) : bytes := fp2_toBytes F (e2 a) ++ fp2_toBytes F (e1 a) ++ fp2_toBytes F (e0 a).
(** :67-74, :98-101 *)
Definition fp6_zero : fe6 := mk6 fp2_zero fp2_zero fp2_zero.
Definition fp6_one : fe6 := mk6 fp2_one fp2_zero fp2_zero.
Definition fp6_equal (a b : fe6) : bool :=
  fp2_equal (e0 a) (e0 b) && fp2_equal (e1 a) (e1 b) && fp2_equal (e2 a) (e2 b).
(** :110-157 *)
Definition fp6_add (a b : fe6) : fe6 := mk6 (add2 (e0 a) (e0 b)) (add2 (e1 a) (e1 b)) (add2 (e2 a) (e2 b)).
Definition fp6_double (a : fe6) : fe6 := mk6 (double2 (e0 a)) (double2 (e1 a)) (double2 (e2 a)).
Definition fp6_sub (a b : fe6) : fe6 := mk6 (sub2 (e0 a) (e0 b)) (sub2 (e1 a) (e1 b)) (sub2 (e2 a) (e2 b)).
Definition fp6_neg (a : fe6) : fe6 := mk6 (neg2 (e0 a)) (neg2 (e1 a)) (neg2 (e2 a)).
(** :166-220 *)
Definition fp6_mul (a b : fe6) : fe6 :=
  let t0 := mul2 (e0 a) (e0 b) in
  let t1 := mul2 (e1 a) (e1 b) in
  let t2 := mul2 (e2 a) (e2 b) in
  let t3 := add2 (e1 a) (e2 a) in
  let t4 := add2 (e1 b) (e2 b) in
  let t3 := mul2 t3 t4 in
  let t4 := add2 t1 t2 in
  let t3 := sub2 t3 t4 in
  let t3 := nr2 t3 in
  let t5 := add2 t0 t3 in
  let t3 := add2 (e0 a) (e1 a) in
  let t4 := add2 (e0 b) (e1 b) in
  let t3 := mul2 t3 t4 in
  let t4 := add2 t0 t1 in
  let t3 := sub2 t3 t4 in
  let t4 := nr2 t2 in
  let c1 := add2 t3 t4 in
  let t3 := add2 (e0 a) (e2 a) in
  let t4 := add2 (e0 b) (e2 b) in
  let t3 := mul2 t3 t4 in
  let t4 := add2 t0 t2 in
  let t3 := sub2 t3 t4 in
  let c2 := add2 t1 t3 in
  mk6 t5 c1 c2.
(** :222-241 *)
Definition fp6_square (a : fe6) : fe6 :=
  let t0 := square2 (e0 a) in
  let t1 := mul2 (e0 a) (e1 a) in
  let t1 := double2 t1 in
  let t2 := sub2 (e0 a) (e1 a) in
  let t2 := add2 t2 (e2 a) in
  let t2 := square2 t2 in
  let t3 := mul2 (e1 a) (e2 a) in
  let t3 := double2 t3 in
  let t4 := square2 (e2 a) in
  let t5 := nr2 t3 in
  let c0 := add2 t0 t5 in
  let t5 := nr2 t4 in
  let c1 := add2 t1 t5 in
  let t1 := add2 t1 t2 in
  let t1 := add2 t1 t3 in
  let t0 := add2 t0 t4 in
  mk6 c0 c1 (sub2 t1 t0).
(** :243-261 *)
Definition fp6_mulBy01Assign (a : fe6) (b0 b1 : fe2) : fe6 :=
  let t0 := mul2 (e0 a) b0 in
  let t1 := mul2 (e1 a) b1 in
  let t5 := add2 (e1 a) (e2 a) in
  let t2 := mul2 b1 t5 in
  let t2 := sub2 t2 t1 in
  let t2 := nr2 t2 in
  let t5 := add2 (e0 a) (e2 a) in
  let t3 := mul2 b0 t5 in
  let t3 := sub2 t3 t0 in
  let a2 := add2 t3 t1 in
  let t4 := add2 b0 b1 in
  let t5 := add2 (e0 a) (e1 a) in
  let t4 := mul2 t4 t5 in
  let t4 := sub2 t4 t0 in
  let a1 := sub2 t4 t1 in
  mk6 (add2 t2 t0) a1 a2.
(** :263-281 *)
Definition fp6_mulBy01 (a : fe6) (b0 b1 : fe2) : fe6 :=
  let t0 := mul2 (e0 a) b0 in
  let t1 := mul2 (e1 a) b1 in
  let t2 := add2 (e1 a) (e2 a) in
  let t2 := mul2 t2 b1 in
  let t2 := sub2 t2 t1 in
  let t2 := nr2 t2 in
  let t3 := add2 (e0 a) (e2 a) in
  let t3 := mul2 t3 b0 in
  let t3 := sub2 t3 t0 in
  let c2 := add2 t3 t1 in
  let t4 := add2 b0 b1 in
  let t3 := add2 (e0 a) (e1 a) in
  let t4 := mul2 t4 t3 in
  let t4 := sub2 t4 t0 in
  let c1 := sub2 t4 t1 in
  mk6 (add2 t2 t0) c1 c2.
(** :283-289 *)
Definition fp6_mulBy1 (a : fe6) (b1 : fe2) : fe6 :=
  let t0 := mul2 (e2 a) b1 in
  mk6 (nr2 t0) (mul2 (e0 a) b1) (mul2 (e1 a) b1).
(** :291-297 *)
Definition fp6_mulByNonResidue (a : fe6) : fe6 := mk6 (nr2 (e2 a)) (e0 a) (e1 a).
(** :299-304 *)
Definition fp6_mulByBaseField (a : fe6) (b : fe2) : fe6 := mk6 (mul2 (e0 a) b) (mul2 (e1 a) b) (mul2 (e2 a) b).
(** :317-340 *)
Definition fp6_inverse (a : fe6) : fe6 :=
  let t0 := square2 (e0 a) in
  let t1 := mul2 (e1 a) (e2 a) in
  let t1 := nr2 t1 in
  let t0 := sub2 t0 t1 in
  let t1 := square2 (e1 a) in
  let t2 := mul2 (e0 a) (e2 a) in
  let t1 := sub2 t1 t2 in
  let t2 := square2 (e2 a) in
  let t2 := nr2 t2 in
  let t3 := mul2 (e0 a) (e1 a) in
  let t2 := sub2 t2 t3 in
  let t3 := mul2 (e2 a) t2 in
  let t4 := mul2 (e1 a) t1 in
  let t3 := add2 t3 t4 in
  let t3 := nr2 t3 in
  let t4 := mul2 (e0 a) t0 in
  let t3 := add2 t3 t4 in
  let t3 := fp2_inverse F t3 in
  mk6 (mul2 t0 t3) (mul2 t2 t3) (mul2 t1 t3).
(** :342-358 for powers other than 3 modulo 6, :360-378 for all *)
Definition fp6_frobeniusMapAssign (a : fe6) (power : Z) : fe6 :=
  let a0 := fp2_frobeniousMap (e0 a) power in
  let a1 := fp2_frobeniousMap (e1 a) power in
  let a2 := fp2_frobeniousMap (e2 a) power in
  if power mod 6 =? 0 then mk6 a0 a1 a2
  else if power mod 6 =? 3 then mk6 a0 (f_neg F (snd a1), fst a1) (neg2 a2)
  else mk6 a0 (mul2 a1 (nth (Z.to_nat (power mod 6)) frobeniusCoeffs61 fp2_zero))
              (mul2 a2 (nth (Z.to_nat (power mod 6)) frobeniusCoeffs62 fp2_zero)).

(** ** fp12.go *)
(** :44-66 *)
Definition fp12_fromBytes (b : bytes) : option fe12 :=
  if negb (length b =? 576)%nat then None
  else match fp6_fromBytes (firstn 288 b) with
       | None => None
       | Some c1 => match fp6_fromBytes (skipn 288 b) with
         | None => None
         | Some c0 => Some (mk12 c0 c1)
         end end.
Definition fp12_toBytes (a : fe12) : bytes := fp6_toBytes (d1 a) ++ fp6_toBytes (d0 a).
(** :76-79, :99-102 *)
Definition fp12_one : fe12 := mk12 fp6_one fp6_zero.
Definition fp12_equal (a b : fe12) : bool := fp6_equal (d0 a) (d0 b) && fp6_equal (d1 a) (d1 b).
(** :110-140 *)
Definition fp12_add (a b : fe12) : fe12 := mk12 (fp6_add (d0 a) (d0 b)) (fp6_add (d1 a) (d1 b)).
Definition fp12_sub (a b : fe12) : fe12 := mk12 (fp6_sub (d0 a) (d0 b)) (fp6_sub (d1 a) (d1 b)).
Definition fp12_conjugate (a : fe12) : fe12 := mk12 (d0 a) (fp6_neg (d1 a)).
(** :142-153 *)
Definition fp12_square (a : fe12) : fe12 :=
  let t0 := fp6_add (d0 a) (d1 a) in
  let t2 := fp6_mul (d0 a) (d1 a) in
  let t1 := fp6_mulByNonResidue (d1 a) in
  let t1 := fp6_add t1 (d0 a) in
  let t3 := fp6_mulByNonResidue t2 in
  let t0 := fp6_mul t0 t1 in
  let t0 := fp6_sub t0 t2 in
  mk12 (fp6_sub t0 t3) (fp6_double t2).
(** :209-219 *)
Definition fp4Square (a0 a1 : fe2) : fe2 * fe2 :=
  let t0 := square2 a0 in
  let t1 := square2 a1 in
  let t2 := nr2 t1 in
  let c0 := add2 t2 t0 in
  let t2 := add2 a0 a1 in
  let t2 := square2 t2 in
  let t2 := sub2 t2 t0 in
  (c0, sub2 t2 t1).
(** :155-179 *)
Definition fp12_cyclotomicSquare (a : fe12) : fe12 :=
  let '(t3, t4) := fp4Square (e0 (d0 a)) (e1 (d1 a)) in
  let t2 := sub2 t3 (e0 (d0 a)) in
  let t2 := double2 t2 in
  let c00 := add2 t2 t3 in
  let t2 := add2 t4 (e1 (d1 a)) in
  let t2 := double2 t2 in
  let c11 := add2 t2 t4 in
  let '(t3, t4) := fp4Square (e0 (d1 a)) (e2 (d0 a)) in
  let '(t5, t6) := fp4Square (e1 (d0 a)) (e2 (d1 a)) in
  let t2 := sub2 t3 (e1 (d0 a)) in
  let t2 := double2 t2 in
  let c01 := add2 t2 t3 in
  let t2 := add2 t4 (e2 (d1 a)) in
  let t2 := double2 t2 in
  let c12 := add2 t2 t4 in
  let t3 := nr2 t6 in
  let t2 := add2 t3 (e0 (d1 a)) in
  let t2 := double2 t2 in
  let c10 := add2 t2 t3 in
  let t2 := sub2 t5 (e2 (d0 a)) in
  let t2 := double2 t2 in
  let c02 := add2 t2 t5 in
  mk12 (mk6 c00 c01 c02) (mk6 c10 c11 c12).
(** :181-207 *)
Definition fp12_mul (a b : fe12) : fe12 :=
  let t1 := fp6_mul (d0 a) (d0 b) in
  let t2 := fp6_mul (d1 a) (d1 b) in
  let t0 := fp6_add t1 t2 in
  let t2 := fp6_mulByNonResidue t2 in
  let t3 := fp6_add t1 t2 in
  let t1 := fp6_add (d0 a) (d1 a) in
  let t2 := fp6_add (d0 b) (d1 b) in
  let t1 := fp6_mul t1 t2 in
  mk12 t3 (fp6_sub t1 t0).
(** :221-231 *)
Definition fp12_inverse (a : fe12) : fe12 :=
  let t0 := fp6_square (d0 a) in
  let t1 := fp6_square (d1 a) in
  let t1 := fp6_mulByNonResidue t1 in
  let t1 := fp6_sub t0 t1 in
  let t0 := fp6_inverse t1 in
  let c0 := fp6_mul (d0 a) t0 in
  let t0 := fp6_mul t0 (d1 a) in
  mk12 c0 (fp6_neg t0).
(** :233-244 *)
Definition fp12_mulBy014Assign (a : fe12) (c0 c1 c4 : fe2) : fe12 :=
  let t0 := fp6_mulBy01 (d0 a) c0 c1 in
  let t1 := fp6_mulBy1 (d1 a) c4 in
  let u := add2 c1 c4 in
  let t2 := fp6_add (d1 a) (d0 a) in
  let t2 := fp6_mulBy01Assign t2 c0 u in
  let t2 := fp6_sub t2 t0 in
  let a1 := fp6_sub t2 t1 in
  let t1 := fp6_mulByNonResidue t1 in
  mk12 (fp6_add t1 t0) a1.
(** :246-266: the loop over the bits of s from the highest; nothing for s <= 0
    (big.Int.Bit of a negative number is not modelled) *)
Fixpoint fp12_exp_pos (sq : fe12 -> fe12) (a : fe12) (s : positive) : fe12 :=
  match s with
  | xH => fp12_mul (sq fp12_one) a
  | xO s' => sq (fp12_exp_pos sq a s')
  | xI s' => fp12_mul (sq (fp12_exp_pos sq a s')) a
  end.
Definition fp12_exp (a : fe12) (s : Z) : fe12 :=
  match s with Zpos s => fp12_exp_pos fp12_square a s | _ => fp12_one end.
Definition fp12_cyclotomicExp (a : fe12) (s : Z) : fe12 :=
  match s with Zpos s => fp12_exp_pos fp12_cyclotomicSquare a s | _ => fp12_one end.
(** :268-294; with a separate target only power 6 has a caller *)
Definition fp12_frobeniusMapAssign (a : fe12) (power : Z) : fe12 :=
  let a0 := fp6_frobeniusMapAssign (d0 a) power in
  let a1 := fp6_frobeniusMapAssign (d1 a) power in
  if power =? 0 then mk12 a0 a1
  else if power =? 6 then mk12 a0 (fp6_neg a1)
  else mk12 a0 (fp6_mulByBaseField a1 (nth (Z.to_nat power) frobeniusCoeffs12 fp2_zero)).

(** ** gt.go *)
(** :67-71 *)
Definition gt_IsValid (e : fe12) : bool := fp12_equal (fp12_exp e bls_order) fp12_one.
(** :50-59: None is an error *)
Definition gt_FromBytes (b : bytes) : option fe12 :=
  match fp12_fromBytes b with
  | None => None
  | Some e => if gt_IsValid e then Some e else None
  end.
(** :62-64, :99-126 *)
Definition gt_ToBytes : fe12 -> bytes := fp12_toBytes.
Definition gt_Add := fp12_add.
Definition gt_Sub := fp12_sub.
Definition gt_Mul := fp12_mul.
Definition gt_Square := fp12_cyclotomicSquare.
Definition gt_Exp := fp12_cyclotomicExp.
Definition gt_Inverse := fp12_inverse.

(** ** pairing.go *)
Notation pt1 := (point fe). Notation pt2 := (point fe2).
(** three coefficients of a line *)
Record line := mkL { l0 : fe2; l1 : fe2; l2 : fe2 }.
(** :85-117 *)
Definition doublingStep (r : pt2) : line * pt2 :=
  let t0 := mul2 (px r) (py r) in
  let t0 := fp2_mulByFq t0 twoInv in
  let t1 := square2 (py r) in
  let t2 := square2 (pz r) in
  let t7 := double2 t2 in
  let t7 := add2 t7 t2 in
  let t3 := fp2_mulByB t7 in
  let t4 := double2 t3 in
  let t4 := add2 t4 t3 in
  let t5 := add2 t1 t4 in
  let t5 := fp2_mulByFq t5 twoInv in
  let t6 := add2 (py r) (pz r) in
  let t6 := square2 t6 in
  let t7 := add2 t2 t1 in
  let t6 := sub2 t6 t7 in
  let c0 := sub2 t3 t1 in
  let t7 := square2 (px r) in
  let t4 := sub2 t1 t4 in
  let x3 := mul2 t4 t0 in
  let t2 := square2 t3 in
  let t3 := double2 t2 in
  let t3 := add2 t3 t2 in
  let t5 := square2 t5 in
  let y3 := sub2 t5 t3 in
  let z3 := mul2 t1 t6 in
  let t0 := double2 t7 in
  let c1 := add2 t0 t7 in
  (mkL c0 c1 (neg2 t6), mkP x3 y3 z3).
(** :119-148 *)
Definition additionStep (r q : pt2) : line * pt2 :=
  let t0 := mul2 (py q) (pz r) in
  let t0 := neg2 t0 in
  let t0 := add2 t0 (py r) in
  let t1 := mul2 (px q) (pz r) in
  let t1 := neg2 t1 in
  let t1 := add2 t1 (px r) in
  let t2 := square2 t0 in
  let t3 := square2 t1 in
  let t4 := mul2 t1 t3 in
  let t2 := mul2 (pz r) t2 in
  let t3 := mul2 (px r) t3 in
  let t5 := double2 t3 in
  let t5 := sub2 t4 t5 in
  let t5 := add2 t5 t2 in
  let x3 := mul2 t1 t5 in
  let t2 := sub2 t3 t5 in
  let t2 := mul2 t2 t0 in
  let t3 := mul2 (py r) t4 in
  let y3 := sub2 t2 t3 in
  let z3 := mul2 (pz r) t4 in
  let t2 := mul2 t1 (py q) in
  let t3 := mul2 t0 (px q) in
  let c0 := sub2 t3 t2 in
  (mkL c0 (neg2 t0) t1, mkP x3 y3 z3).
(** the bits of x below the highest, from above: :158, :180 *)
Definition x_bits : list bool := map (fun i => Z.testbit x_abs (62 - Z.of_nat i)) (seq 0 63).
(** :150-167: the coefficients in the order in which j counts them *)
Fixpoint pre_loop (bits : list bool) (r q : pt2) : list line :=
  match bits with
  | [] => []
  | b :: bits =>
      let '(c, r) := doublingStep r in
      if b then let '(c', r) := additionStep r q in c :: c' :: pre_loop bits r q
      else c :: pre_loop bits r q
  end.
Definition preCompute (q : pt2) : list line := if g_IsZero (C2 F) q then [] else pre_loop x_bits q q.
(** :184-188, :191-195: one inner loop over the pairs; [j] is the index of the
    coefficients, an entry that was never written is zero *)
Definition zero_line : line := mkL fp2_zero fp2_zero fp2_zero.
Definition ell_one (j : nat) (f : fe12) (cp : list line * pt1) : fe12 :=
  let c := nth j (fst cp) zero_line in
  let t0 := fp2_mulByFq (l2 c) (py (snd cp)) in
  let t1 := fp2_mulByFq (l1 c) (px (snd cp)) in
  fp12_mulBy014Assign f (l0 c) t1 t0.
Definition ell (l : list (list line * pt1)) (j : nat) (f : fe12) : fe12 := fold_left (ell_one j) l f.
(** :179-198 *)
Fixpoint miller_loop (bits : list bool) (first : bool) (l : list (list line * pt1)) (j : nat) (f : fe12) : fe12 :=
  match bits with
  | [] => f
  | b :: bits =>
      let f := if first then f else fp12_square f in
      let f := ell l j f in
      if b then miller_loop bits false l (j + 2) (ell l (j + 1) f)
      else miller_loop bits false l (j + 1) f
  end.
(** :169-200 *)
Definition millerLoop (pairs : list (pt1 * pt2)) : fe12 :=
  fp12_conjugate (miller_loop x_bits true (map (fun PQ => (preCompute (snd PQ), fst PQ)) pairs) 0 fp12_one).
(** :201-205 *)
Definition pexp (a : fe12) : fe12 := fp12_conjugate (fp12_cyclotomicExp a x_abs).
(** :207-241 *)
Definition finalExp (f : fe12) : fe12 :=
  let t0 := fp12_frobeniusMapAssign f 6 in
  let t1 := fp12_inverse f in
  let t2 := fp12_mul t0 t1 in
  let t1 := t2 in
  let t2 := fp12_frobeniusMapAssign t2 2 in
  let t2 := fp12_mul t2 t1 in
  let t1 := fp12_cyclotomicSquare t2 in
  let t1 := fp12_conjugate t1 in
  let t3 := pexp t2 in
  let t4 := fp12_cyclotomicSquare t3 in
  let t5 := fp12_mul t1 t3 in
  let t1 := pexp t5 in
  let t0 := pexp t1 in
  let t6 := pexp t0 in
  let t6 := fp12_mul t6 t4 in
  let t4 := pexp t6 in
  let t5 := fp12_conjugate t5 in
  let t4 := fp12_mul t4 t5 in
  let t4 := fp12_mul t4 t2 in
  let t5 := fp12_conjugate t2 in
  let t1 := fp12_mul t1 t2 in
  let t1 := fp12_frobeniusMapAssign t1 3 in
  let t6 := fp12_mul t6 t5 in
  let t6 := fp12_frobeniusMapAssign t6 1 in
  let t3 := fp12_mul t3 t0 in
  let t3 := fp12_frobeniusMapAssign t3 2 in
  let t3 := fp12_mul t3 t1 in
  let t3 := fp12_mul t3 t6 in
  fp12_mul t3 t4.
(** :243-251 *)
Definition calculate (pairs : list (pt1 * pt2)) : fe12 :=
  match pairs with [] => fp12_one | _ => finalExp (millerLoop pairs) end.
(** :254-256; the pairs come from ModelBls.AddPair.  They are values: points given to
    one engine under one pointer twice are not modelled *)
Definition eng_Check (pairs : list (pt1 * pt2)) : bool := fp12_equal fp12_one (calculate pairs).
(** :259-263; the pairs are dropped *)
Definition eng_Result (pairs : list (pt1 * pt2)) : fe12 := calculate pairs.
End Tower.
