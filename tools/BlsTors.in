(** The exponent of the group of the points of y^2 = x^3 + 4(1+i) over F_p(i), by
    counting: points of each prime order generate a subgroup with more than a
    third of all the elements the curve can have.  Generated by tools/mkblstors.py. *)
From Coq Require Import ZArith List Bool Lia Znumtheory Ring Field.
From Verif Require Import Base ModelBlsF SpecBls ProofBlsE SpecBlsG BlsPrime ProofBlsH Fp BlsFp2 BlsFrob ProofBlsI Weier Group SpecBlsSig ProofBlsJ ProofBlsK BlsPrimes BlsPrimes2 BlsCard Mont63 BlsG2Gen ProofBlsL.
Import ListNotations.
Local Open Scope Z_scope.
Add Field KFT1 : Kp1.
Add Field KFT2 : Kp2.

Definition lz (x : Z * Z) : L2 := l2 (fst x) (snd x).
Definition pt (x y : Z * Z) : g2pt := Weier.Aff _ (q2 bls_p (fst x) (snd x)) (q2 bls_p (fst y) (snd y)).
Definition oP : Z := @P@.
Section Tors.
Variables (x y : Z * Z) (n : Z).
Lemma tors : (2 <? n) = true -> t_on ctx_blsp (lz x) (lz y) (l2 4 4) = true -> t_check ctx_blsp (lz x) (lz y) (l2 1 0) n = true ->
  g2_on (pt x y) /\ g2_mul n (pt x y) = g2_inf.
Proof using.
  intros Hn Hon Hc. apply Z.ltb_lt in Hn. unfold lz in *.
  pose proof (t_check_ok ctx_blsp (l2 (fst x) (snd x)) (l2 (fst y) (snd y)) (l2 1 0) ctx_blsp_ok) as C.
  pose proof (t_on_ok ctx_blsp ctx_blsp_ok) as O.
  pose proof (l2_rel (fst x) (snd x)) as RX. pose proof (l2_rel (fst y) (snd y)) as RY. pose proof (l2_rel 1 0) as R1. pose proof (l2_rel 4 4) as R4.
  revert C O RX RY R1 R4. unfold pt, g2_on, g2_mul, g2_add, g2_neg, g2_inf, g2pt.
  pose proof G2 as G. unfold g2_on, g2_add, g2_neg, g2_inf, g2pt in G. pose proof char2_2 as H2. pose proof bls_p_prime as HP. pose proof p34 as H34. revert G H2 HP H34.
  rewrite <- ctx_p. intros G H2 HP H34 C O RX RY R1 R4.
  pose proof (O HP H34 _ _ _ _ _ _ RX RY R4 Hon) as ON. split; [exact ON|].
  exact (C HP H34 H2 _ _ _ RX RY R1 G ON n Hn Hc).
Qed.
Lemma tors_ne a b : g2_on (pt x y) -> (0 <? n) = true -> t_ne ctx_blsp (lz x) (lz y) (l2 1 0) (lz a) n = true ->
  pt a b <> g2_mul n (pt x y).
Proof using.
  intros ON Hn Hc. apply Z.ltb_lt in Hn. unfold lz in *.
  pose proof (t_ne_ok ctx_blsp (l2 (fst x) (snd x)) (l2 (fst y) (snd y)) (l2 1 0) ctx_blsp_ok) as C.
  pose proof (l2_rel (fst x) (snd x)) as RX. pose proof (l2_rel (fst y) (snd y)) as RY. pose proof (l2_rel 1 0) as R1.
  pose proof (l2_rel (fst a) (snd a)) as RA.
  revert ON C RX RY R1 RA. unfold pt, g2_on, g2_mul, g2_add, g2_neg, g2_inf, g2pt.
  pose proof G2 as G. unfold g2_on, g2_add, g2_neg, g2_inf, g2pt in G. pose proof char2_2 as H2. pose proof bls_p_prime as HP. pose proof p34 as H34. revert G H2 HP H34.
  rewrite <- ctx_p. intros G H2 HP H34 ON C RX RY R1 RA.
  exact (C HP H34 H2 _ _ _ RX RY R1 G ON n _ _ _ Hn RA Hc).
Qed.
End Tors.
Lemma oP_prime : prime oP. Proof. exact prime_cp. Qed.

@POINTS@
Lemma ne13 : forallb (t_ne ctx_blsp (lz tx13) (lz ty13) (l2 1 0) (lz tx13b)) (map Z.of_nat (seq 1 12)) = true.
Proof. vm_cast_no_check (@eq_refl bool true). Qed.
Lemma ne23 : forallb (t_ne ctx_blsp (lz tx23) (lz ty23) (l2 1 0) (lz tx23b)) (map Z.of_nat (seq 1 22)) = true.
Proof. vm_cast_no_check (@eq_refl bool true). Qed.
Lemma indep x y a b (q : nat) : g2_on (pt x y) ->
  forallb (t_ne ctx_blsp (lz x) (lz y) (l2 1 0) (lz a)) (map Z.of_nat (seq 1 (q - 1))) = true ->
  forall k, 0 <= k < Z.of_nat q -> pt a b <> g2_mul k (pt x y).
Proof.
  intros ON H k Hk. destruct (Z.eq_dec k 0) as [->|Nk]; [discriminate|].
  rewrite forallb_forall in H. apply tors_ne; [exact ON|apply Z.ltb_lt; lia|]. apply H.
  apply in_map_iff. exists (Z.to_nat k). split; [lia|]. apply in_seq. lia.
Qed.
Lemma ind13 : forall k, 0 <= k < 13 -> T13b <> g2_mul k T13.
Proof. exact (indep tx13 ty13 tx13b ty13b 13 (proj1 T13_ord) ne13). Qed.
Lemma ind23 : forall k, 0 <= k < 23 -> T23b <> g2_mul k T23.
Proof. exact (indep tx23 ty23 tx23b ty23b 23 (proj1 T23_ord) ne23). Qed.
