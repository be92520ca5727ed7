(** Package pasta: fields, Pallas group, Poseidon, Mina signatures.
    A Field or Scalar is a list of four 64-bit limbs, least significant first, in
    Montgomery form.  No proofs in this file. *)
Require Import ZArith List Bool.
Require Import Verif.Base Verif.ModelECDSA Verif.ModelW64 Verif.ModelPastaCode Verif.ModelApi.
Import ListNotations.
Open Scope Z_scope.

Definition limbs := list Z.

(** ** Fields *)
(* pasta/pasta_fp.go:125-1145 and the wrappers crypto.go:181-240 (FieldMul ... FieldNegate,
   which copy the operands) *)
Definition FpMul (a b : limbs) : limbs := wexec fp_mul_code fp_mul_out (a ++ b).
Definition FpSquare (a : limbs) : limbs := wexec fp_square_code fp_square_out a.
Definition FpAdd (a b : limbs) : limbs := wexec fp_add_code fp_add_out (a ++ b).
Definition FpSub (a b : limbs) : limbs := wexec fp_sub_code fp_sub_out (a ++ b).
Definition FpOpp (a : limbs) : limbs := wexec fp_opp_code fp_opp_out a.
Definition FpFromMontgomery (a : limbs) : limbs := wexec fp_from_code fp_from_out a.
Definition FpToMontgomery (a : limbs) : limbs := wexec fp_to_code fp_to_out a.
(* pasta/pasta_fq.go:122-1141 and crypto.go:254-300 *)
Definition FqMul (a b : limbs) : limbs := wexec fq_mul_code fq_mul_out (a ++ b).
Definition FqSquare (a : limbs) : limbs := wexec fq_square_code fq_square_out a.
Definition FqAdd (a b : limbs) : limbs := wexec fq_add_code fq_add_out (a ++ b).
Definition FqSub (a b : limbs) : limbs := wexec fq_sub_code fq_sub_out (a ++ b).
Definition FqOpp (a : limbs) : limbs := wexec fq_opp_code fq_opp_out a.
Definition FqFromMontgomery (a : limbs) : limbs := wexec fq_from_code fq_from_out a.
Definition FqToMontgomery (a : limbs) : limbs := wexec fq_to_code fq_to_out a.

Definition limb (i : nat) (a : limbs) : Z := nth i a 0.
(* pasta_fp.go:1155-1159 and pasta_fq.go:1151-1155, NonZero: the or of the limbs *)
Definition NonZero (a : limbs) : Z := Z.lor (limb 0 a) (Z.lor (limb 1 a) (Z.lor (limb 2 a) (limb 3 a))).
Definition zero4 : limbs := [0; 0; 0; 0].       (* const.go: FieldZero, ScalarZero *)
(* pasta_fp.go:1731-1765 *)
Definition FpEquals (x y : limbs) : bool := NonZero (FpSub x y) =? 0.
Definition FpEqualsZero (x : limbs) : bool := NonZero x =? 0.
Definition FpEqualsOne (x : limbs) : bool := NonZero (FpSub x fp_set_one) =? 0.
(* pasta_fq.go:1701-1710 *)
Definition FqEquals (x y : limbs) : bool := NonZero (FqSub x y) =? 0.
(* pasta_fp.go:1711-1724, FiatPastaFpPow: square and multiply, first bit first.  Go
   indexes the first bits_len entries; every call passes the whole list. *)
Definition FpPow (a : limbs) (bits : list bool) : limbs :=
  fold_left (fun (out : limbs) (b : bool) => let out := FpSquare out in if b then FpMul out a else out) bits fp_set_one.
(* pasta_fp.go:1726-1729 *)
Definition FpInv (a : limbs) : limbs := FpPow a pminus2.
(* pasta_fp.go:1814-1818: square until one, counting; None: not within the fuel *)
Fixpoint order2 (fuel : nat) (b2m : limbs) (m : nat) : option nat :=
  if FpEqualsOne b2m then Some m
  else match fuel with O => None | S f => order2 f (FpSquare b2m) (S m) end.
(* pasta_fp.go:1824-1828 *)
Fixpoint square_n (n : nat) (w : limbs) : limbs := match n with O => w | S n => square_n n (FpSquare w) end.
(* pasta_fp.go:1811-1835, the main loop.  j = v - m - 1 is not positive when m >= v;
   the truncated subtraction gives 0 and the loop is skipped as in Go. *)
Fixpoint tonelli (fuel v : nat) (z x b : limbs) : option limbs :=
  if FpEqualsOne b then Some x
  else match fuel with
       | O => None
       | S f => match order2 64 b 0 with
                | None => None
                | Some m => let w := square_n (v - m - 1) z in
                            let z := FpSquare w in
                            tonelli f m z (FpMul x w) (FpMul b z)
                end
       end.
(* pasta_fp.go:1781-1837, FiatPastaFpSqrt: Some (Some x) a root, Some None no root,
   None the loops have not finished within the fuel *)
Definition FpSqrt (value : limbs) : option (option limbs) :=
  if FpEqualsZero value then Some (Some zero4)
  else if negb (FpEqualsOne (FpPow value pminus1over2)) then Some None
  else let w := FpPow value tminus1over2 in
       let x := FpMul value w in
       let b := FpMul x w in
       match tonelli 64 32 sqrt_z x b with Some x => Some (Some x) | None => None end.
(* crypto.go:211-226, FieldPow; the exponent is a uint8 and math.Log2 rounds down *)
Definition FieldPow (a : limbs) (b : Z) : limbs :=
  if b =? 0 then FieldOne
  else fold_left (fun c i => let c := FpSquare c in
                             if Z.testbit b (Z.of_nat i) then FpMul c a else c)
                 (rev (seq 0 (S (Z.to_nat (Z.log2 b))))) FieldOne.
(* crypto.go:172-179 *)
Definition FieldIsOdd (y : limbs) : bool := Z.land (limb 0 (FpFromMontgomery y)) 1 =? 1.

(** ** Bytes *)
(* encoding/binary LittleEndian.Uint64 and PutUint64 *)
Definition Uint64 (l : bytes) : Z := le2z l.
Definition PutUint64 (v : Z) : bytes := z2le 8 v.
(* utils.go:5-17 *)
Definition BytesArrayToU64Array (l : bytes) : limbs :=
  map (fun i => Uint64 (firstn 8 (skipn (8 * i) l))) (seq 0 4).
Definition U64ArrayToBytesArray (a : limbs) : bytes := flat_map (fun i => PutUint64 (limb i a)) (seq 0 4).
(* utils.go:62-68, reverseBytes; every call in the package passes 32 bytes *)
Definition reverseBytes (l : bytes) : bytes := rev l.
(* utils.go:19-49 *)
Definition BigEndianBytesToFqMontgomeryArray (l : bytes) : limbs := FqToMontgomery (BytesArrayToU64Array (reverseBytes l)).
Definition BigEndianBytesToFpMontgomeryArray (l : bytes) : limbs := FpToMontgomery (BytesArrayToU64Array (reverseBytes l)).
Definition FqMontgomeryArrayToBigEndianBytes (a : limbs) : bytes := reverseBytes (U64ArrayToBytesArray (FqFromMontgomery a)).
(* crypto.go:29-35 *)
Definition Field_ToBigEndianBytes (f : limbs) : bytes := reverseBytes (U64ArrayToBytesArray f).

(** ** Group *)
Record group := mkgroup { gX : limbs; gY : limbs; gZ : limbs }.
Record affine := mkaffine { aX : limbs; aY : limbs }.
Definition GroupZero : group := mkgroup GroupZeroX GroupZeroY GroupZeroZ.     (* const.go:23-27 *)
Definition AffineOne : affine := mkaffine AffineOneX AffineOneY.              (* const.go:29-32 *)

Definition IsZero (p : group) : bool := FpEquals (gZ p) zero4.                (* crypto.go:302-304 *)
(* crypto.go:341-351 *)
Definition AffineToGroup (p : affine) : group :=
  if FpEquals (aX p) zero4 && FpEquals (aY p) zero4 then mkgroup zero4 FieldOne zero4
  else mkgroup (aX p) (aY p) FieldOne.
(* crypto.go:353-365 *)
Definition AffineFromGroup (p : group) : affine :=
  if FpEquals (gZ p) zero4 then mkaffine zero4 zero4
  else let zi := FpInv (gZ p) in
       let zi2 := FpMul zi zi in
       let zi3 := FpMul zi2 zi in
       mkaffine (FpMul (gX p) zi2) (FpMul (gY p) zi3).
(* crypto.go:314-339 *)
Definition GroupIsOnCurve (p : group) : bool :=
  if IsZero p then true
  else if FpEquals (gZ p) FieldOne then
    FpEquals (FpSquare (gY p)) (FpAdd (FpMul (FpSquare (gX p)) (gX p)) GroupCoeffB)
  else
    let x3 := FpMul (FpSquare (gX p)) (gX p) in
    let z6 := FpMul (FpMul (FpSquare (FpSquare (gZ p))) (gZ p)) (gZ p) in
    FpEquals (FpSquare (gY p)) (FpAdd x3 (FpMul z6 GroupCoeffB)).
(* crypto.go:371-402; r.X, r.Y, r.Z serve as temporaries *)
Definition GroupDbl (p : group) : group :=
  if IsZero p then p
  else
    let a := FpSquare (gX p) in
    let b := FpSquare (gY p) in
    let c := FpSquare b in
    let rX := FpAdd (gX p) b in
    let rY := FpSquare rX in
    let rZ := FpSub rY a in
    let rX := FpSub rZ c in
    let d := FpAdd rX rX in
    let e := FpMul FieldThree a in
    let f := FpSquare e in
    let rY := FpAdd d d in
    let rX := FpSub f rY in
    let rY := FpSub d rX in
    let f := FpMul FieldEight c in
    let rZ := FpMul e rY in
    let rY := FpSub rZ f in
    let f := FpMul (gY p) (gZ p) in
    let rZ := FpAdd f f in
    mkgroup rX rY rZ.
(* crypto.go:404-463 *)
Definition GroupAdd (p q : group) : group :=
  if IsZero p then q
  else if IsZero q then p
  else if FpEquals (gX p) (gX q) && FpEquals (gY p) (gY q) && FpEquals (gZ p) (gZ q) then GroupDbl p
  else
    let z1z1 := FpSquare (gZ p) in
    let z2z2 := FpSquare (gZ q) in
    let u1 := FpMul (gX p) z2z2 in
    let u2 := FpMul (gX q) z1z1 in
    let rX := FpMul (gZ q) z2z2 in
    let s1 := FpMul (gY p) rX in
    let rY := FpMul (gZ p) z1z1 in
    let s2 := FpMul (gY q) rY in
    let h := FpSub u2 u1 in
    let rZ := FpAdd h h in
    let i := FpSquare rZ in
    let j := FpMul h i in
    let rX := FpSub s2 s1 in
    let w := FpAdd rX rX in
    let v := FpMul u1 i in
    let rX := FpSquare w in
    let rY := FpAdd v v in
    let rZ := FpSub rX j in
    let rX := FpSub rZ rY in
    let rY := FpSub v rX in
    let rZ := FpMul s1 j in
    let s1 := FpAdd rZ rZ in
    let rZ := FpMul w rY in
    let rY := FpSub rZ s1 in
    let rZ := FpAdd (gZ p) (gZ q) in
    let s1 := FpSquare rZ in
    let rZ := FpSub s1 z1z1 in
    let j := FpSub rZ z2z2 in
    let rZ := FpMul j h in
    mkgroup rX rY rZ.
(* crypto.go:477-481: bit j of the limbs *)
Definition bit_at (k : limbs) (j : nat) : bool := Z.land (Z.shiftr (limb (j / 64) k) (Z.of_nat (j mod 64))) 1 =? 1.
(* crypto.go:465-493 *)
Definition GroupScalarMul (k : limbs) (p : group) : group :=
  if IsZero p then GroupZero
  else if FqEquals k zero4 then GroupZero
  else
    let k_bits := FqFromMontgomery k in
    fold_left (fun r i =>
      let tmp := GroupDbl r in
      if bit_at k_bits (254 - i) then GroupAdd tmp p else tmp) (seq 0 255) GroupZero.
(* crypto.go:495-499: the three coordinates are copied *)
Definition GroupNegate (p : group) : group := p.
(* crypto.go:501-533 *)
Definition AffineScalarMul (k : limbs) (p : affine) : affine := AffineFromGroup (GroupScalarMul k (AffineToGroup p)).
Definition AffineEq (p q : affine) : bool := FpEquals (aX p) (aX q) && FpEquals (aY p) (aY q).
Definition AffineAdd (p q : affine) : affine := AffineFromGroup (GroupAdd (AffineToGroup p) (AffineToGroup q)).
Definition AffineNegate (p : affine) : affine := AffineFromGroup (GroupNegate (AffineToGroup p)).
Definition AffineIsOnCurve (p : affine) : bool := GroupIsOnCurve (AffineToGroup p).

(** ** Encodings *)
(* crypto.go:64-73 *)
Definition Affine_ToBigEndianBytes (a : affine) : bytes :=
  Field_ToBigEndianBytes (FpFromMontgomery (aX a)) ++ Field_ToBigEndianBytes (FpFromMontgomery (aY a)).
(* crypto.go:553-583, Decompress: the new value of pt and the boolean; None: fuel *)
Definition Decompress (pt : affine) (cx : limbs) (odd : bool) : option (affine * bool) :=
  let y2 := FpAdd (FpMul (FpSquare cx) cx) GroupCoeffB in
  match FpSqrt y2 with
  | None => None
  | Some None => Some (mkaffine cx (aY pt), false)
  | Some (Some y_pre) =>
      let y_pre_odd := Z.land (limb 0 (FpFromMontgomery y_pre)) 1 =? 1 in
      Some (mkaffine cx (if eqb y_pre_odd odd then y_pre else FpOpp y_pre), true)
  end.
Definition affine0 : affine := mkaffine zero4 zero4.       (* var a Affine *)
(* crypto.go:75-108 with 127-146, FromBigEndianBytes of a fresh Affine.  Inner None: the
   error return.  For 33 bytes the error for a bad first byte is not returned
   (crypto.go:136) and the boolean of Decompress is dropped (crypto.go:85); for 65
   bytes the coordinates are not read (crypto.go:89-95). *)
Definition Affine_FromBigEndianBytes (p : bytes) : option (option affine) :=
  if negb (Nat.eqb (length p) 33 || Nat.eqb (length p) 64 || Nat.eqb (length p) 65) then Some None
  else if Nat.eqb (length p) 33 then
    match Decompress affine0 (BigEndianBytesToFpMontgomeryArray (skipn 1 p)) (nth 0 p 0 =? 3) with
    | None => None
    | Some (a, _) => Some (Some a)
    end
  else if Nat.eqb (length p) 65 then
    if negb (nth 0 p 0 =? 4) then Some None else Some (Some (mkaffine zero4 zero4))
  else Some (Some (mkaffine (BigEndianBytesToFpMontgomeryArray (firstn 32 p))
                            (BigEndianBytesToFpMontgomeryArray (skipn 32 p)))).

(** ** Poseidon *)
(* poseidon.go:19-36; the state of MaxSpongeWidth = 5 fields is cut to the width 3 *)
Definition MatrixMul (s : list limbs) (m : list (list limbs)) : list limbs :=
  map (fun row => fold_left (fun acc c => FpAdd acc (FpMul (fst c) (snd c))) (combine s row) zero4) m.
Definition add_keys (s k : list limbs) : list limbs := map (fun c => FpAdd (fst c) (snd c)) (combine s k).
(* poseidon.go:38-57: FullRounds = RoundCount3W - 1 = 63 rounds, then the last keys *)
Definition PerMutation3W (s : list limbs) : list limbs :=
  let s := fold_left (fun s r => MatrixMul (map (fun x => FieldPow x 5) (add_keys s (nth r round_keys []))) mds_matrix)
                     (seq 0 63) s in
  add_keys s (nth 63 round_keys []).
Fixpoint update_nth (n : nat) (f : limbs -> limbs) (l : list limbs) : list limbs :=
  match l, n with
  | [], _ => []
  | x :: t, O => f x :: t
  | x :: t, S n => x :: update_nth n f t
  end.
(* poseidon.go:85-99 *)
Definition absorb1 (ctx : list limbs * nat) (x : limbs) : list limbs * nat :=
  let '(s, n) := if Nat.eqb (snd ctx) 2 then (PerMutation3W (fst ctx), O) else ctx in
  (update_nth n (fun t => FpAdd t x) s, S n).
Definition PoseidonUpdate (ctx : list limbs * nat) (input : list limbs) : list limbs * nat := fold_left absorb1 input ctx.
(* poseidon.go:101-108 *)
Definition PoseidonDigest (ctx : list limbs * nat) : bytes :=
  reverseBytes (U64ArrayToBytesArray (FpFromMontgomery (nth 0 (PerMutation3W (fst ctx)) zero4))).

(** ** Mina messages and signatures *)
(* mina.go:5-9 *)
Record message := mkmessage { m_prefix : list limbs; m_suffix : list limbs; m_iv : list limbs }.
Definition bindp {A B} (x : option (option A)) (f : A -> option (option B)) : option (option B) :=
  match x with Some (Some a) => f a | Some None => Some None | None => None end.
(* mina.go:28-40; an error of FromBigEndianBytes is dropped and leaves the zero Affine *)
Definition MessageHash (pub : bytes) (r_mont : limbs) (m : message) : option bytes :=
  match Affine_FromBigEndianBytes pub with
  | None => None
  | Some oa =>
      let a := match oa with Some a => a | None => affine0 end in
      Some (PoseidonDigest (PoseidonUpdate (m_iv m, O) (m_prefix m ++ [aX a; aY a; r_mont] ++ m_suffix m)))
  end.

(* pasta.go:11-19 *)
Definition valid_private (k : bytes) : bool := Nat.eqb (length k) 32 && (Z.land (nth 0 k 0) 0xC0 =? 0).
Definition pasta_GenPublicKey (privateKey : bytes) : option bytes :=
  if valid_private privateKey
  then Some (Affine_ToBigEndianBytes (AffineScalarMul (BigEndianBytesToFqMontgomeryArray privateKey) AffineOne))
  else None.
(* pasta.go:26-41: the nonce loop; [rnd i] is what the i-th read of crypto/rand leaves in kBytes *)
Definition mask_nonce (k : bytes) : bytes := match k with [] => [] | b :: t => Z.land b 3 :: t end.
Fixpoint draw_nonce (rnd : nat -> bytes) (fuel i : nat) : option limbs :=
  match fuel with
  | O => None
  | S f => let k := BigEndianBytesToFqMontgomeryArray (mask_nonce (rnd i)) in
           if NonZero k =? 0 then draw_nonce rnd f (S i) else Some k
  end.

Section Mina.
(** encoding/json decoding of a message (mina.go:19-26), an oracle *)
Variable json : bytes -> option message.

(* pasta.go:21-68.  None: a loop has not finished within its fuel; Some None: error *)
Definition pasta_Sign (rnd : nat -> bytes) (fuel : nat) (privateKey msg : bytes) : option (option bytes) :=
  match pasta_GenPublicKey privateKey with
  | None => Some None
  | Some pubBytes =>
      match draw_nonce rnd fuel 0 with
      | None => None
      | Some k =>
          let r := AffineScalarMul k AffineOne in
          let rBytes := firstn 32 (Affine_ToBigEndianBytes r) in
          let k := if FieldIsOdd (aY r) then FqOpp k else k in
          match json msg with
          | None => Some None
          | Some mm =>
              match MessageHash pubBytes (aX r) mm with
              | None => None
              | Some hash =>
                  let e_priv := FqMul (BigEndianBytesToFqMontgomeryArray hash) (BigEndianBytesToFqMontgomeryArray privateKey) in
                  let s := FqAdd k e_priv in
                  Some (Some (rBytes ++ FqMontgomeryArrayToBigEndianBytes s))
              end
          end
      end
  end.
(* pasta.go:70-125.  The tests for nil slices add nothing: an empty key or signature
   fails on its length and an empty message is no JSON text. *)
Definition pasta_Verify (publicKey msg sig : bytes) : option bool :=
  if negb (Nat.eqb (length sig) 64) then Some false
  else
    match Affine_FromBigEndianBytes publicKey with
    | None => None
    | Some None => Some false
    | Some (Some pub) =>
        let r_mont := BigEndianBytesToFpMontgomeryArray (firstn 32 sig) in
        let s_mont := BigEndianBytesToFqMontgomeryArray (skipn 32 sig) in
        match json msg with
        | None => Some false
        | Some mm =>
            match MessageHash publicKey r_mont mm with
            | None => None
            | Some hash =>
                let e := BigEndianBytesToFqMontgomeryArray hash in
                let g := AffineToGroup AffineOne in
                let sg := GroupScalarMul s_mont g in
                let epub := GroupScalarMul e (AffineToGroup pub) in
                let neg_epub := mkgroup (gX epub) (FpOpp (gY epub)) (gZ epub) in
                let r := GroupAdd sg neg_epub in
                let raff := AffineFromGroup r in
                let ry_even := Z.land (limb 0 (FpFromMontgomery (aY raff))) 1 =? 0 in
                Some (ry_even && FpEquals (aX raff) r_mont)
            end
        end
    end.
End Mina.

(* pasta.go:139-156 *)
Definition pasta_PointAdd (point1 point2 : bytes) : option (option bytes) :=
  bindp (Affine_FromBigEndianBytes point1) (fun p =>
  bindp (Affine_FromBigEndianBytes point2) (fun q =>
  Some (Some (Affine_ToBigEndianBytes (AffineAdd p q))))).
(* pasta.go:127-137 *)
Definition pasta_PointMulBaseGAdd (pointin scalar : bytes) : option (option bytes) :=
  match pasta_GenPublicKey scalar with
  | None => Some None
  | Some p => pasta_PointAdd p pointin
  end.
(* pasta.go:158-172 *)
Definition pasta_PointMul (pointin scalar : bytes) : option (option bytes) :=
  if negb (Nat.eqb (length scalar) 32) then Some None
  else bindp (Affine_FromBigEndianBytes pointin) (fun p =>
       Some (Some (Affine_ToBigEndianBytes (AffineScalarMul (BigEndianBytesToFqMontgomeryArray scalar) p)))).
(* pasta.go:174-181 *)
Definition pasta_PointDecompress (point : bytes) : option (option bytes) :=
  bindp (Affine_FromBigEndianBytes point) (fun a => Some (Some (4 :: Affine_ToBigEndianBytes a))).

(** ** Behind the dispatcher (eccset.go:52-55, 106-108, 185-187, 380-383, 418-420, 481-484,
    541-544, 569-572, 581-584, 630-633).  A loop that does not finish is rendered as a
    panic; PropsPasta.v proves that this does not happen. *)
Definition fuel_o {A} (x : option A) : outcome A := match x with Some a => Ret a | None => Panic end.
Definition pasta_pkg (json : bytes -> option message) (rnd : nat -> bytes) (fuel : nat) : sigpkg :=
  {| sp_genpub := fun k => Ret (match pasta_GenPublicKey k with Some p => Ok p | None => Err ErrOther end);
     sp_sign := fun k m => match pasta_Sign json rnd fuel k m with
                           | None => None
                           | Some (Some s) => Some (Ret (Ok s))
                           | Some None => Some (Ret (Err ErrOther))
                           end;
     sp_verify := fun p m s => fuel_o (pasta_Verify json p m s) |}.
Definition runs_pasta (json : bytes -> option message) (rnd : nat -> bytes) (B : backends) : Prop :=
  bk_pasta B = pasta_pkg json rnd (bk_fuel B) /\
  (forall p s, bk_pasta_baseadd B p s = fuel_o (pasta_PointMulBaseGAdd p s)) /\
  (forall p q, bk_pasta_add B p q = fuel_o (pasta_PointAdd p q)) /\
  (forall p s, bk_pasta_mul B p s = fuel_o (pasta_PointMul p s)) /\
  (forall p, bk_pasta_decompress B p = fuel_o (pasta_PointDecompress p)).
