(** The isogeny of the BLS12-381 G2 map is a homomorphism of the two curves. *)
From Coq Require Import ZArith List Bool Lia Znumtheory Ring Field.
From Verif Require Import Base ModelBlsF SpecBls ModelBls ProofBlsF ProofBlsE SpecBlsG BlsPrime ProofBlsH Fp BlsFp2 BlsFrob ProofBlsI Weier Group SpecBlsSig ProofBlsJ ProofBlsK BlsPrimes Mont63 BlsG2Gen ProofBlsL BlsExp SpecBlsMap ProofBlsN IsoAlg ProofBlsO IsoHom.
Local Open Scope Z_scope.
Add Field KFT2 : Kp2.
Lemma g2_y x y : g2_on (Weier.Aff _ x y) -> y <> z2.
Proof.
  intros O Z. subst y. assert (P2 : g2_mul 2 (Weier.Aff _ x z2) = g2_inf).
  { unfold g2_mul. rewrite (zmul_double _ _ _ _ _ G2 1) by exact O. rewrite (zmul_1 _ _ _ _ _ G2) by exact O.
    unfold g2_add. cbn [Weier.padd]. destruct (q2_dec x x) as [_|N]; [|congruence].
    destruct (q2_dec z2 (q2_opp z2)) as [_|N]; [reflexivity|]. exfalso. apply N. ring. }
  apply no_two in P2; [discriminate|exact O].
Qed.
Lemma b_ns s : q2_mul s s <> q2 p 4 4.
Proof. intros E. apply b_nonsq. exists s. exact E. Qed.
Notation iP := (isoP Fp2 o2 q2_add q2_mul q2_sub q2_opp q2_div vv).
Lemma iso_isoP P : e1_on P -> iso_map P = iP P.
Proof. destruct P as [|x y]; [reflexivity|]. intros E. exact (iso_pts x y (e1_den x y E)). Qed.
Lemma e1_add_on P Q : e1_on P -> e1_on Q -> e1_on (e1_add P Q).
Proof. exact (padd_on _ _ _ _ _ _ _ _ _ Kp2 q2_dec iso_A iso_B char2_2 P Q). Qed.
Theorem iso_add P Q : e1_on P -> e1_on Q -> iso_map (e1_add P Q) = g2_add (iso_map P) (iso_map Q).
Proof.
  intros HP HQ. rewrite (iso_isoP _ (e1_add_on P Q HP HQ)), (iso_isoP P HP), (iso_isoP Q HQ).
  exact (isoP_add _ _ _ _ _ _ _ _ _ Kp2 vv _ _ _ hA hB hb c3 q2_dec char2_2 b_ns g2_y P Q HP HQ).
Qed.
Lemma sum_form k Q0 Q1 S : e1_on Q0 -> e1_on Q1 -> S = g2_mul k (iso_map (e1_add Q0 Q1)) -> S = g2_mul k (g2_add (iso_map Q0) (iso_map Q1)).
Proof. intros H0 H1 ->. rewrite (iso_add Q0 Q1 H0 H1). reflexivity. Qed.
