(** What the pairing code has to compute. *)
From Coq Require Import ZArith List.
From Verif Require Import Base ModelBlsF SpecBls ModelBls Fp BlsFp2 Weier Group SpecBlsSig.
Import ListNotations.

(** A triple with last coordinate one holds the Montgomery forms of the
    coordinates of a point *)
Definition affine1 (P : ModelBls.point fe) (A : g1pt) : Prop :=
  match A with
  | Weier.Inf _ => False
  | Weier.Aff _ x y => fe_of (px P) (fval x) /\ fe_of (py P) (fval y) /\ pz P = r1
  end.
Definition affine2 (P : ModelBls.point fe2) (A : g2pt) : Prop :=
  match A with
  | Weier.Inf _ => False
  | Weier.Aff _ x y =>
      (fe_of (fst (px P)) (fval (fst x)) /\ fe_of (snd (px P)) (fval (snd x))) /\
      (fe_of (fst (py P)) (fval (fst y)) /\ fe_of (snd (py P)) (fval (snd y))) /\ pz P = fp2_one
  end.
(** The product of the pairings of the pairs is one.  The first points are
    multiples of the generator *)
Definition decides_pairing (pairs_one : list (ModelBls.point fe * ModelBls.point fe2) -> bool)
  {GT : Type} (one : GT) (mul : GT -> GT -> GT) (e : g1pt -> g2pt -> GT) : Prop :=
  forall l (pts : list (Z * g2pt)), l <> [] ->
  Forall2 (fun PQ aB => affine1 (fst PQ) (g1_mul (fst aB) g1_gen) /\ affine2 (snd PQ) (snd aB) /\ in_G2 (snd aB)) l pts ->
  (pairs_one l = true <->
   fold_right (fun aB acc => mul (e (g1_mul (fst aB) g1_gen) (snd aB)) acc) one pts = one).
