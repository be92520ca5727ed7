(** Equations between constants of F_p(i), decided by computing modulo p. *)
From Coq Require Import ZArith List Bool Lia Znumtheory Ring Field.
From Verif Require Import Base SpecBls Fp BlsFp2 ProofBlsE ProofBlsI ProofBlsJ ProofBlsK ProofBlsN ProofBlsO.
Import ListNotations.
Local Open Scope Z_scope.

Inductive qex : Type :=
| QK (a b : Z) | QA (x y : qex) | QS (x y : qex) | QM (x y : qex).
Fixpoint qev (e : qex) : fp2 bls_p :=
  match e with
  | QK a b => q2 bls_p a b
  | QA x y => q2_add (qev x) (qev y)
  | QS x y => q2_sub (qev x) (qev y)
  | QM x y => q2_mul (qev x) (qev y)
  end.
Fixpoint qz (e : qex) : Z * Z :=
  match e with
  | QK a b => (a, b)
  | QA x y => let (a, b) := qz x in let (c, d) := qz y in (a + c, b + d)
  | QS x y => let (a, b) := qz x in let (c, d) := qz y in (a - c, b - d)
  | QM x y => let (a, b) := qz x in let (c, d) := qz y in ((a * c - b * d) mod bls_p, (a * d + b * c) mod bls_p)
  end.
Lemma q2_subz a b c d : q2_sub (q2 bls_p a b) (q2 bls_p c d) = q2 bls_p (a - c) (b - d).
Proof. unfold q2_sub, q2. cbn [fst snd]. rewrite !fp_of_sub. reflexivity. Qed.
Lemma q2_red a b : q2 bls_p (a mod bls_p) (b mod bls_p) = q2 bls_p a b.
Proof. unfold q2. f_equal; apply fp_of_eq; apply Z.mod_mod; discriminate. Qed.
Lemma qz_ok e : q2 bls_p (fst (qz e)) (snd (qz e)) = qev e.
Proof.
  induction e as [a b|x IHx y IHy|x IHx y IHy|x IHx y IHy]; cbn [qz qev]; [reflexivity| | |];
    rewrite <- IHx, <- IHy; destruct (qz x), (qz y); cbn [fst snd].
  - symmetry. apply q2_addz.
  - symmetry. apply q2_subz.
  - rewrite q2_red. symmetry. apply q2_mulz.
Qed.
Definition qeq (e f : qex) : bool :=
  let (a, b) := qz (QS e f) in (a mod bls_p =? 0) && (b mod bls_p =? 0).
Lemma qeq_zero e f : qeq e f = true <-> qev (QS e f) = z2.
Proof.
  unfold qeq. rewrite <- (qz_ok (QS e f)). destruct (qz (QS e f)) as [a b]. cbn [fst snd]. rewrite andb_true_iff, !Z.eqb_eq. split.
  - intros [A B]. rewrite <- q2_red, A, B. reflexivity.
  - intros E. unfold q2 in E. apply pair_equal_spec in E. destruct E as [A B]. apply (f_equal fval) in A, B.
    rewrite !fval_of, Zmod_0_l in A, B. auto.
Qed.
Add Field KFX2 : Kp2.
Theorem qeq_ok e f : qeq e f = true -> qev e = qev f.
Proof.
  intros E. apply qeq_zero in E. cbn [qev] in E. transitivity (q2_add (q2_sub (qev e) (qev f)) (qev f)); [ring|]. rewrite E. ring.
Qed.
Theorem qne_ok e f : qeq e f = false -> qev e <> qev f.
Proof.
  intros E X. assert (T : qeq e f = true) by (apply qeq_zero; cbn [qev]; rewrite X; ring). rewrite T in E. discriminate E.
Qed.
Ltac qreify t :=
  match t with
  | q2_add ?x ?y => let a := qreify x in let b := qreify y in constr:(QA a b)
  | q2_sub ?x ?y => let a := qreify x in let b := qreify y in constr:(QS a b)
  | q2_mul ?x ?y => let a := qreify x in let b := qreify y in constr:(QM a b)
  | q2 _ ?a ?b => constr:(QK a b)
  end.
Ltac qdec := match goal with
  | |- ?x = ?y => let e := qreify x in let f := qreify y in
      refine (qeq_ok e f _); vm_cast_no_check (@eq_refl bool true)
  | |- ?x <> ?y => let e := qreify x in let f := qreify y in
      refine (qne_ok e f _); vm_cast_no_check (@eq_refl bool false)
  end.
Example qdec_demo : q2_mul (q2 bls_p 0 1) (q2 bls_p 0 1) = q2_sub (q2 bls_p 0 0) (q2 bls_p 1 0) /\ q2 bls_p 2 0 <> q2 bls_p 3 0.
Proof. split; qdec. Qed.
