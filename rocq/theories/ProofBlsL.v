(** A generator of G2, and a pairing that can be evaluated: examples for the
    properties of signatures. *)
From Coq Require Import ZArith List Bool Lia Znumtheory.
From Verif Require Import Base ModelECDSA ModelBlsF SpecBls ProofBlsF ModelBls ProofBlsE SpecBlsG BlsPrime ProofBlsH Fp BlsFp2 BlsFrob ProofBlsI Weier Jac Group ProofBlsG SpecBlsSig SpecBlsPair ProofBlsJ ProofBlsK BlsPrimes Mont63 BlsG2Gen.
Import ListNotations.
Local Open Scope Z_scope.

Definition g2x0 := 0x24aa2b2f08f0a91260805272dc51051c6e47ad4fa403b02b4510b647ae3d1770bac0326a805bbefd48056c8c121bdb8.
Definition g2x1 := 0x13e02b6052719f607dacd3a088274f65596bd0d09920b61ab5da61bbdc7f5049334cf11213945d57e5ac7d055d042b7e.
Definition g2y0 := 0xce5d527727d6e118cc9cdc6da2e351aadfd9baa8cbdd3a76d429a695160d12c923ac9cc3baca289e193548608b82801.
Definition g2y1 := 0x606c4a02ea734cc32acd2b02bc28b99cb3e287e85a763af267492ab572e99ab3f370d275cec1da1aaa9075ff05f79be.
Definition g2_gen : g2pt := Weier.Aff _ (q2 bls_p g2x0 g2x1) (q2 bls_p g2y0 g2y1).
Definition l2 (a b : Z) : L2 := (c_of ctx_blsp a, c_of ctx_blsp b).
Local Transparent blsr.
Lemma g2_chain : t_check ctx_blsp (l2 g2x0 g2x1) (l2 g2y0 g2y1) (l2 1 0) bls_r = true.
Proof. vm_cast_no_check (@eq_refl bool true). Qed.
Lemma g2_chain_on : t_on ctx_blsp (l2 g2x0 g2x1) (l2 g2y0 g2y1) (l2 4 4) = true.
Proof. vm_cast_no_check (@eq_refl bool true). Qed.
Lemma r_gt2 : 2 < bls_r. Proof. reflexivity. Qed.
Lemma ctx_p : mc_p ctx_blsp = bls_p. Proof. vm_cast_no_check (@eq_refl Z bls_p). Qed.
Local Opaque bls_r g2x0 g2x1 g2y0 g2y1 bls_p.
Lemma l2_rel a b : rel2 ctx_blsp (l2 a b) (q2 _ a b).
Proof. split; apply c_of_rel, ctx_blsp_ok. Qed.
Lemma gen2_in : in_G2 g2_gen.
Proof.
  pose proof (t_check_ok ctx_blsp (l2 g2x0 g2x1) (l2 g2y0 g2y1) (l2 1 0) ctx_blsp_ok) as C.
  pose proof (t_on_ok ctx_blsp ctx_blsp_ok) as O.
  pose proof (l2_rel g2x0 g2x1) as RX. pose proof (l2_rel g2y0 g2y1) as RY. pose proof (l2_rel 1 0) as R1. pose proof (l2_rel 4 4) as R4.
  specialize (C). revert C O RX RY R1 R4. unfold g2_gen, in_G2, g2_on, g2_mul, g2_add, g2_neg, g2_inf, g2pt.
  pose proof G2 as G. unfold g2_on, g2_add, g2_neg, g2_inf, g2pt in G. pose proof char2_2 as H2. pose proof bls_p_prime as HP. pose proof p34 as H34. revert G H2 HP H34.
  rewrite <- ctx_p. intros G H2 HP H34 C O RX RY R1 R4.
  pose proof (O HP H34 _ _ _ _ _ _ RX RY R4 g2_chain_on) as ON. split; [exact ON|].
  exact (C HP H34 H2 _ _ _ RX RY R1 G ON bls_r r_gt2 g2_chain).
Qed.
Lemma gen2_affine : affine2 g2One g2_gen.
Proof.
  assert (X : rep2 (ModelBls.px g2One) (q2 bls_p g2x0 g2x1) /\ rep2 (ModelBls.py g2One) (q2 bls_p g2y0 g2y1)).
  { Local Transparent bls_p g2x0 g2x1 g2y0 g2y1.
    refine (conj (conj _ _) (conj _ _)); (apply rep1_check; [split; [reflexivity|repeat constructor; lia]| |]; vm_compute; reflexivity).
    Local Opaque bls_p g2x0 g2x1 g2y0 g2y1. }
  destruct X as [HX HY]. exact (conj HX (conj HY eq_refl)).
Qed.

(** The toy pairing on coordinates in Montgomery form *)
Definition unm (x : fe) : fp bls_p := fp_of bls_p (bval x * bls_Ri).
Lemma unm_rep x a : fe_of x (fval a) -> unm x = a.
Proof.
  intros H. assert (H' : fe_of x ((bval x * bls_Ri) mod bls_p)).
  { destruct H as (L & W & B & E). apply fe_of_ex; [split; assumption|]. rewrite E. apply Z.mod_pos_bound. apply p_gt0. }
  pose proof (fe_of_inj _ _ _ H H') as E. apply fp_eq. unfold unm. rewrite fval_of. symmetry. exact E.
Qed.
Definition un1 (P : ModelBls.point fe) : g1pt := Weier.Aff _ (unm (ModelBls.px P)) (unm (ModelBls.py P)).
Definition un2 (P : ModelBls.point fe2) : g2pt :=
  Weier.Aff _ (unm (fst (ModelBls.px P)), unm (snd (ModelBls.px P))) (unm (fst (ModelBls.py P)), unm (snd (ModelBls.py P))).
Lemma un1_ok P A : affine1 P A -> un1 P = A.
Proof. destruct A as [|x y]; [contradiction|]. intros (HX & HY & _). unfold un1. f_equal; apply unm_rep; assumption. Qed.
Lemma un2_ok P A : affine2 P A -> un2 P = A.
Proof.
  destruct A as [|[x0 x1] [y0 y1]]; [contradiction|]. intros ((HX & HX') & (HY & HY') & _). cbn [fst snd] in *. unfold un2. rewrite (unm_rep _ _ HX), (unm_rep _ _ HX'), (unm_rep _ _ HY), (unm_rep _ _ HY'). reflexivity.
Qed.
Definition toy_pairs (l : list (ModelBls.point fe * ModelBls.point fe2)) : bool :=
  match fold_right (fun PQ acc => g2_add (toy (un1 (fst PQ)) (un2 (snd PQ))) acc) g2_inf l with Weier.Inf _ => true | _ => false end.
Lemma toy_decides : decides_pairing toy_pairs g2_inf g2_add toy.
Proof.
  intros l pts _ H. unfold toy_pairs.
  assert (E : fold_right (fun PQ acc => g2_add (toy (un1 (fst PQ)) (un2 (snd PQ))) acc) g2_inf l =
    fold_right (fun aB acc => g2_add (toy (g1_mul (fst aB) g1_gen) (snd aB)) acc) g2_inf pts).
  { induction H as [|PQ aB l pts (A1 & A2 & _) _ IH]; [reflexivity|]. cbn [fold_right]. rewrite IH, (un1_ok _ _ A1), (un2_ok _ _ A2). reflexivity. }
  rewrite E. destruct (fold_right _ _ pts); split; (reflexivity || discriminate).
Qed.
