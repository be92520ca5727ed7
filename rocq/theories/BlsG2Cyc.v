(** The subgroup G2 of BLS12-381 is cyclic: the twist has a point of the prime order oP, and
    oP r^2 points have no room on it. *)
From Coq Require Import ZArith List Bool Lia Znumtheory.
From Verif Require Import Base ModelBlsF SpecBls ProofBlsE SpecBlsG BlsPrime ProofBlsH Fp BlsFp2 BlsFrob ProofBlsI Weier Group AllOrder SpecBlsSig ProofBlsJ ProofBlsK BlsPrimes BlsPrimes2 BlsCard Mont63 BlsG2Gen ProofBlsL BlsTors BlsExp.
Import ListNotations.
Local Open Scope Z_scope.
Local Transparent bls_p bls_r oP.
Lemma oP_1 : ~ (oP | 1).
Proof. intros D. apply Zdivide_bounds in D; [|lia]. revert D. vm_compute. intros D. apply D. reflexivity. Qed.
Lemma r_oP : ~ (bls_r | 1 * oP).
Proof. ndvd. Qed.
Lemma too_many : 2 * bls_p * bls_p + 1 < 1 * oP * bls_r * bls_r.
Proof. vm_compute. reflexivity. Qed.
Lemma TP_ne : TP <> g2_inf. Proof. discriminate. Qed.
Lemma gen2_ne : g2_gen <> g2_inf. Proof. discriminate. Qed.
Local Opaque bls_p bls_r oP Group.zmul.
Lemma stage_room S n m : stg S n m -> 0 <= n -> n <= 2 * bls_p * bls_p + 1.
Proof.
  intros [HS Hn (f & F1 & F2) _] N. apply (AllOrder.pigeon (fun i => g2_code (f i))).
  - exact N.
  - pose proof (code_bound g2_inf (g_zero _ _ _ _ _ G2)) as B. lia.
  - intros i Hi. apply code_bound, (s_ok _ _ _ _ _ HS), F1, Hi.
  - intros i j Hi Hj E. apply F2; auto. apply code_inj; auto; apply (s_ok _ _ _ _ _ HS), F1; assumption.
Qed.
Theorem g2_cyclic G A : in_G2 G -> G <> g2_inf -> in_G2 A -> exists d, 0 <= d < bls_r /\ A = g2_mul d G.
Proof.
  intros HG G0 HA. pose proof r_prime as Hr. pose proof (prime_ge_2 _ Hr) as R2.
  assert (R : Z.of_nat (Z.to_nat bls_r) = bls_r) by (apply Z2Nat.id; lia). revert R. generalize (Z.to_nat bls_r) as n. intros n R.
  destruct (in_dec pt_dec A (map (fun i => g2_mul (Z.of_nat i) G) (seq 0 n))) as [I|I].
  { apply in_map_iff in I. destruct I as (k & E & Hk). apply in_seq in Hk. exists (Z.of_nat k). split; [lia | symmetry; exact E]. }
  exfalso. assert (NO : forall s, 0 <= s < bls_r -> A <> g2_mul s G).
  { intros s Hs E. apply I. apply in_map_iff. exists (Z.to_nat s). rewrite Z2Nat.id by lia. split; [symmetry; exact E|]. apply in_seq. lia. }
  destruct (stg_prime _ _ _ oP TP (stage_zero g2_inf g2_add g2_neg g2_on G2) oP_prime oP_1 TP_ord TP_ne) as (S1 & T1).
  destruct (stg_two _ _ _ bls_r G A T1 Hr r_oP HG HA G0 NO) as (S2 & T2).
  pose proof (st_n _ _ _ _ _ _ _ T2) as P2. pose proof (stage_room _ _ _ T2 (Z.lt_le_incl _ _ P2)) as L. pose proof too_many as M.
  exact (Z.lt_irrefl _ (Z.lt_le_trans _ _ _ M L)).
Qed.
