(** Semantics of the straight-line limb arithmetic of eddsa/edwards25519
    (and of its copies in eddsa/x25519.go): int32 and int64 expressions and the
    carry/fold statements, with Go's wrap-around arithmetic.  No proofs here. *)
Require Import ZArith List.
Require Import Verif.Base.
Import ListNotations.
Open Scope Z_scope.

(** Go int32/int64/int8: the value an arithmetic result is stored as. *)
Definition sgn (w : Z) (x : Z) : Z := (x + 2 ^ (w - 1)) mod 2 ^ w - 2 ^ (w - 1).
Definition i8 := sgn 8.
Definition i32 := sgn 32.
Definition i64 := sgn 64.

(** Expressions over an array of int32 (or int64) variables. *)
Inductive ex : Type :=
| V (n : nat)                (* int64(x[n]) *)
| M32 (c : Z) (n : nat)      (* int64(c * x[n]), product in int32 *)
| K (c : Z)                  (* a constant *)
| Add (a b : ex)             (* int64 addition *)
| Mul (a b : ex).            (* int64 multiplication *)

Fixpoint ev (x : list Z) (e : ex) : Z :=
  match e with
  | V n => nth n x 0
  | M32 c n => i32 (c * nth n x 0)
  | K c => c
  | Add a b => i64 (ev x a + ev x b)
  | Mul a b => i64 (ev x a * ev x b)
  end.

(** x[i] = v *)
Fixpoint upd (i : nat) (v : Z) (x : list Z) : list Z :=
  match x, i with
  | [], _ => []
  | _ :: t, O => v :: t
  | h :: t, S i' => h :: upd i' v t
  end.

(** Statements.  [Carry r k i j m]: c = (x[i] + r) >> k; x[j] += c * m;
    x[i] -= c << k.  [Drop k i]: c = x[i] >> k; x[i] -= c << k.
    [Fold i l]: for each (j, c) in l, x[j] += x[i] * c (written -= with the
    opposite constant when c < 0); then x[i] = 0. *)
Inductive instr : Type :=
| Carry (r k : Z) (i j : nat) (m : Z)
| Drop (k : Z) (i : nat)
| Fold (i : nat) (l : list (nat * Z)).

Section Exec.
Variable w : Z.   (* width of the integer type *)

Definition acc (x : list Z) (j : nat) (v : Z) : list Z := upd j (sgn w (nth j x 0 + v)) x.

Definition step (x : list Z) (s : instr) : list Z :=
  match s with
  | Carry r k i j m =>
      let c := Z.shiftr (sgn w (nth i x 0 + r)) k in
      let x1 := acc x j (sgn w (c * m)) in
      upd i (sgn w (nth i x1 0 - sgn w (Z.shiftl c k))) x1
  | Drop k i =>
      let c := Z.shiftr (nth i x 0) k in
      upd i (sgn w (nth i x 0 - sgn w (Z.shiftl c k))) x
  | Fold i l =>
      upd i 0 (fold_left (fun y jc => acc y (fst jc) (sgn w (nth i y 0 * snd jc))) l x)
  end.

Definition exec (c : list instr) (x : list Z) : list Z := fold_left step c x.
End Exec.

(** byte((x[i] >> a) | (x[j] << b)): a list of (limb, right shift); a negative
    shift is a left shift. *)
Definition piece : Type := (nat * Z)%type.
Definition out_byte (x : list Z) (ps : list piece) : Z :=
  (fold_right (fun p v => Z.lor (Z.shiftr (nth (fst p) x 0) (snd p)) v) 0 ps) mod 256.
Definition out_bytes (pss : list (list piece)) (x : list Z) : bytes := map (out_byte x) pss.

(** A load: (offset, number of bytes, right shift, mask).
    mask & (load(in[off:]) >> shift); mask -1 when the source has none. *)
Definition load : Type := (nat * nat * Z * Z)%type.
Definition loadn (off n : nat) (b : bytes) : Z := le2z (firstn n (skipn off b)).
Definition ld (b : bytes) (l : load) : Z :=
  let '(off, n, sh, m) := l in Z.land m (Z.shiftr (loadn off n b) sh).
