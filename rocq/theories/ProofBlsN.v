(** The squares of F_p(i). *)
From Coq Require Import ZArith List Bool Lia Znumtheory Ring Field.
From Verif Require Import Base ModelBlsF SpecBls ModelBls ProofBlsF ProofBlsE SpecBlsG BlsPrime ProofBlsH Fp BlsFp2 BlsFrob ProofBlsI Weier Group SpecBlsSig ProofBlsJ ProofBlsK BlsPrimes Mont63 BlsG2Gen ProofBlsL BlsExp SpecBlsMap.
Import ListNotations.
Local Open Scope Z_scope.
Add Field KFN1 : Kp1.
Add Field KFN2 : Kp2.

Notation f0 := (fp_of p 0).
Notation f1 := (fp_of p 1).
Notation z2 := (q2 p 0 0).
Notation o2 := (q2 p 1 0).
Notation pw1 := (pw (fp p) (fp_of p 1) fp_mul).
Definition chi (a : fp p) : fp p := pw1 a (e12 p).
Lemma E1 : (2 * e34 p + 1)%nat = e12 p. Proof. exact (proj1 (exps p bls_p_prime p34)). Qed.
Lemma E2 : (2 * e12 p + 1)%nat = Z.to_nat p. Proof. exact (proj2 (exps p bls_p_prime p34)). Qed.
Local Opaque e12 e34.
Lemma pwa a m n : pw1 a (m + n) = fp_mul (pw1 a m) (pw1 a n).
Proof. apply (pw_add _ _ _ _ _ _ _ _ _ Kp1). Qed.
Lemma int1 (a b : fp p) : fp_mul a b = f0 -> a = f0 \/ b = f0.
Proof. intros E. destruct (fp_dec a f0) as [|N]; [left; assumption|right]. transitivity (fp_div (fp_mul a b) a); [field; exact N|]. rewrite E. field. exact N. Qed.
Lemma int2 (a b : fp2 p) : q2_mul a b = z2 -> a = z2 \/ b = z2.
Proof. intros E. destruct (q2_dec a z2) as [|N]; [left; assumption|right]. transitivity (q2_div (q2_mul a b) a); [field; exact N|]. rewrite E. field. exact N. Qed.
Lemma chi_mul a b : chi (fp_mul a b) = fp_mul (chi a) (chi b).
Proof. apply (pw_base _ _ _ _ _ _ _ _ _ Kp1). Qed.
Lemma chi_pm a : a <> f0 -> chi a = f1 \/ chi a = fp_opp f1.
Proof.
  intros N. pose proof (fermat1 p bls_p_prime p34 a) as F. rewrite <- E2 in F.
  replace (2 * e12 p + 1)%nat with (e12 p + (e12 p + 1))%nat in F by lia. rewrite !pwa in F. fold (chi a) in F. cbn [pw] in F.
  assert (Q : fp_mul (fp_sub (chi a) f1) (fp_add (chi a) f1) = f0).
  { transitivity (fp_div (fp_sub (fp_mul (chi a) (fp_mul (chi a) (fp_mul a f1))) a) a); [field; exact N|]. rewrite F. field. exact N. }
  apply int1 in Q. destruct Q as [Q|Q].
  - left. transitivity (fp_add (fp_sub (chi a) f1) f1); [ring|]. rewrite Q. ring.
  - right. transitivity (fp_sub (fp_add (chi a) f1) f1); [ring|]. rewrite Q. ring.
Qed.
Lemma chi_0 : chi f0 = f0.
Proof. apply (pw_0 _ _ _ _ _ _ _ _ _ Kp1). pose proof E1. lia. Qed.
Lemma two_ne : fp_of p 2 <> f0.
Proof. apply fp_of_ne0. Local Transparent bls_p. vm_compute. split; reflexivity. Local Opaque bls_p. Qed.
Lemma ne_pm : f1 <> fp_opp f1.
Proof. intros E. apply two_ne. change 2 with (1 + 1). rewrite fp_of_add. rewrite E at 2. ring. Qed.
Lemma chi_m1 : chi (fp_opp f1) = fp_opp f1.
Proof.
  unfold chi. rewrite <- E1. replace (2 * e34 p + 1)%nat with (e34 p + (e34 p + 1))%nat by lia. rewrite !pwa.
  assert (S : fp_mul (pw1 (fp_opp f1) (e34 p)) (pw1 (fp_opp f1) (e34 p)) = f1).
  { rewrite <- (pw_base _ _ _ _ _ _ _ _ _ Kp1). replace (fp_mul (fp_opp f1) (fp_opp f1)) with f1 by ring. apply (pw_1 _ _ _ _ _ _ _ _ _ Kp1). }
  cbn [pw]. transitivity (fp_mul (fp_mul (pw1 (fp_opp f1) (e34 p)) (pw1 (fp_opp f1) (e34 p))) (fp_opp f1)); [ring|]. rewrite S. ring.
Qed.
Lemma chi_sqrt a : chi a = f1 -> exists s, fp_mul s s = a.
Proof.
  intros E. exists (pw1 a (e34 p + 1)). rewrite <- pwa. replace (e34 p + 1 + (e34 p + 1))%nat with (2 * e34 p + 1 + 1)%nat by lia.
  rewrite E1, pwa. fold (chi a). rewrite E. cbn [pw]. ring.
Qed.
Lemma chi_sq s : s <> f0 -> chi (fp_mul s s) = f1.
Proof. intros N. rewrite chi_mul. destruct (chi_pm s N) as [-> | ->]; ring. Qed.
Lemma sq_or (a : fp p) : (exists s, fp_mul s s = a) \/ (exists s, fp_mul s s = fp_opp a).
Proof.
  destruct (fp_dec a f0) as [-> |N]; [left; exists f0; ring|].
  destruct (chi_pm a N) as [E|E]; [left; apply chi_sqrt, E|right; apply chi_sqrt].
  replace (fp_opp a) with (fp_mul (fp_opp f1) a) by ring. rewrite chi_mul, chi_m1, E. ring.
Qed.
Lemma norm_z : q2_norm z2 = f0. Proof. unfold q2_norm, q2. cbn [fst snd]. ring. Qed.
(** a number of F_p(i) is a square iff its norm is one of F_p *)
Lemma square_norm (a : Fp2) : a <> z2 -> is_square a <-> chi (q2_norm a) = f1.
Proof.
  intros N. split.
  - intros [s <-]. rewrite norm_mul. apply chi_sq. intros Z. apply N. apply (norm_0 p bls_p_prime p34) in Z. rewrite Z. ring.
  - intros C. apply chi_sqrt in C. destruct C as [s S]. destruct a as [a b]. unfold q2_norm in S. cbn [fst snd] in S.
    pose proof two_ne as T. destruct (fp_dec b f0) as [-> |NB].
    + destruct (sq_or a) as [[r E]|[r E]].
      * exists (r, f0). unfold q2_mul. cbn [fst snd]. rewrite <- E. f_equal; ring.
      * exists (f0, r). unfold q2_mul. cbn [fst snd]. replace a with (fp_opp (fp_opp a)) by ring. rewrite <- E. f_equal; ring.
    + set (d := fp_div (fp_add a s) (fp_of p 2)). set (e := fp_div (fp_sub a s) (fp_of p 2)).
      assert (DE : fp_mul d e = fp_opp (fp_mul (fp_div b (fp_of p 2)) (fp_div b (fp_of p 2)))).
      { transitivity (fp_div (fp_sub (fp_mul a a) (fp_mul s s)) (fp_mul (fp_of p 2) (fp_of p 2))); [unfold d, e; field; exact T|]. rewrite S. field. exact T. }
      assert (SM : fp_add d e = a) by (transitivity (fp_div (fp_mul (fp_add f1 f1) a) (fp_of p 2)); [unfold d, e; field; exact T|]; replace (fp_add f1 f1) with (fp_of p 2) by (rewrite <- fp_of_add; reflexivity); field; exact T).
      assert (NBB : fp_mul (fp_div b (fp_of p 2)) (fp_div b (fp_of p 2)) <> f0).
      { intros Z. apply int1 in Z. assert (Z' : fp_div b (fp_of p 2) = f0) by (destruct Z; assumption). apply NB.
        transitivity (fp_mul (fp_div b (fp_of p 2)) (fp_of p 2)); [field; exact T|]. rewrite Z'. ring. }
      assert (ND : d <> f0 /\ e <> f0).
      { split; intros Z; apply NBB; transitivity (fp_opp (fp_mul d e)); try (rewrite DE; ring); rewrite Z; ring. }
      assert (CH : fp_mul (chi d) (chi e) = fp_opp f1).
      { rewrite <- chi_mul, DE. replace (fp_opp (fp_mul (fp_div b (fp_of p 2)) (fp_div b (fp_of p 2)))) with (fp_mul (fp_opp f1) (fp_mul (fp_div b (fp_of p 2)) (fp_div b (fp_of p 2)))) by ring.
        rewrite chi_mul, chi_m1, chi_sq; [ring|]. intros Z. apply NBB. rewrite Z. ring. }
      assert (K : forall d e, d <> f0 -> fp_mul d e = fp_opp (fp_mul (fp_div b (fp_of p 2)) (fp_div b (fp_of p 2))) -> fp_add d e = a -> chi d = f1 -> is_square (a, b)).
      { clear - T. intros d e ND DE SM C. apply chi_sqrt in C. destruct C as [t HT].
        assert (NT : t <> f0) by (intros ->; apply ND; rewrite <- HT; ring).
        exists (t, fp_div b (fp_mul (fp_of p 2) t)). unfold q2_mul. cbn [fst snd]. f_equal.
        - rewrite <- SM. assert (EE : e = fp_opp (fp_mul (fp_div b (fp_mul (fp_of p 2) t)) (fp_div b (fp_mul (fp_of p 2) t)))).
          { transitivity (fp_div (fp_mul d e) d); [field; exact ND|]. rewrite DE, <- HT. field. repeat split; assumption. }
          rewrite EE, HT. ring.
        - transitivity (fp_div (fp_mul (fp_add f1 f1) b) (fp_of p 2)); [field; split; assumption|]. replace (fp_add f1 f1) with (fp_of p 2) by (rewrite <- fp_of_add; reflexivity). field. exact T. }
      destruct ND as [ND NE]. destruct (chi_pm d ND) as [C|C].
      * exact (K d e ND DE SM C).
      * apply (K e d NE); [rewrite <- DE; ring|rewrite <- SM; ring|]. rewrite C in CH.
        transitivity (fp_mul (fp_opp f1) (fp_mul (fp_opp f1) (chi e))); [ring|]. rewrite CH. ring.
Qed.
Lemma square_dec (a : Fp2) : {is_square a} + {~ is_square a}.
Proof.
  destruct (q2_dec a z2) as [E|N]; [left; exists z2; rewrite E; ring|].
  destruct (fp_dec (chi (q2_norm a)) f1) as [E|E]; [left|right]; rewrite (square_norm a N); exact E.
Qed.
Lemma norm_ne (a : Fp2) : a <> z2 -> q2_norm a <> f0.
Proof. intros N Z. apply N. apply (norm_0 p bls_p_prime p34), Z. Qed.
Lemma nonsquare_chi (a : Fp2) : ~ is_square a -> a <> z2 /\ chi (q2_norm a) = fp_opp f1.
Proof.
  intros S. assert (N : a <> z2) by (intros ->; apply S; exists z2; ring). split; [exact N|].
  rewrite (square_norm a N) in S. destruct (chi_pm _ (norm_ne _ N)); [contradiction|assumption].
Qed.
(** the product of two non-squares is a square *)
Lemma nonsquare_mul (a b : Fp2) : ~ is_square a -> ~ is_square b -> is_square (q2_mul a b).
Proof.
  intros A B. destruct (nonsquare_chi a A) as [NA CA]. destruct (nonsquare_chi b B) as [NB CB].
  apply square_norm; [intros Z; apply int2 in Z; destruct Z; contradiction|]. rewrite norm_mul, chi_mul, CA, CB. ring.
Qed.
Lemma square_mul_inv (a b : Fp2) : b <> z2 -> is_square b -> is_square (q2_mul a b) -> is_square a.
Proof.
  intros N [s <-] [t E]. assert (NS : s <> z2) by (intros ->; apply N; ring).
  exists (q2_div t s). transitivity (q2_div (q2_mul t t) (q2_mul s s)); [field; exact NS|]. rewrite E. field. exact NS.
Qed.
