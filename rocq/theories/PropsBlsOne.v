(** Property C100: BLS12-381 signatures and the keys they belong to. *)
From Coq Require Import ZArith List Bool Lia Znumtheory FinFun.
From Verif Require Import Base ModelECDSA ModelApi ModelBlsF SpecBls ModelBls SpecBlsG Fp BlsFp2 Weier Group SpecBlsSig SpecBlsPair ProofBlsI ProofBlsJ ProofBlsK BlsG2Gen ProofBlsL PropsBlsApi PropsBlsSig BlsG2Cyc PropsBlsKey.
Import ListNotations.
Local Open Scope Z_scope.
Local Opaque bls_p bls_r Group.zmul.
Lemma g2_mul_inj G d d' : in_G2 G -> G <> g2_inf -> 0 <= d < bls_r -> 0 <= d' < bls_r -> g2_mul d G = g2_mul d' G -> d = d'.
Proof.
  intros HG N H H' E. apply (zmul_inj _ _ _ _ _ G2_closed bls_r d d' G HG r_prime (proj2 HG) N) in E.
  rewrite !Z.mod_small in E by assumption. exact E.
Qed.
Lemma mul2_in G d : in_G2 G -> in_G2 (g2_mul d G).
Proof. exact (zmul_ok _ _ _ _ _ G2_closed d G). Qed.

(** Exactly r strings of 96 bytes are signatures: those AggregateSignatures takes. *)
Theorem C100_signatures : forall h pairs_one privToPub B, runs_bls portable h pairs_one privToPub B ->
  forall typ, bls_id typ -> exists l : list bytes, NoDup l /\ Z.of_nat (length l) = bls_r /\
  forall sig, bytes_ok sig -> length sig = 96%nat -> (In sig l <-> AggregateSignatures B typ [sig] = Ret (Some sig, SUCCESS)).
Proof.
  intros h pairs_one privToPub B R typ Ht. assert (Rn : Z.of_nat (Z.to_nat bls_r) = bls_r) by (apply Z2Nat.id, Z.lt_le_incl, r_pos).
  destruct (range_list (Z.to_nat bls_r)) as (l & N & L & I). rewrite Rn in I. rewrite <- L in Rn. clear L.
  assert (GI : in_G2 g2_gen) by exact gen2_in.
  exists (map (fun d => sig_bytes (g2_mul d g2_gen)) l). split; [|split].
  - apply NoDup_map_in; [|exact N]. intros d d' Hd Hd' E. apply I in Hd. apply I in Hd'. apply (g2_mul_inj g2_gen d d' GI gen2_ne Hd Hd').
    apply sig_inj; [apply mul2_in, GI.. | exact E].
  - rewrite map_length. exact Rn.
  - intros sig O L. destruct (C84_signature_forms h pairs_one privToPub B R typ sig Ht O L) as [Y X]. split.
    + intros H. apply in_map_iff in H. destruct H as (d & E & _). apply Y. exists (g2_mul d g2_gen). split; [apply mul2_in, GI | exact E].
    + intros V. destruct (is_sig_dec portable portable_exact sig O L) as [D1 D2].
      destruct (opt_dec (g_FromCompressed (C2 portable) sig)) as [S|S].
      * destruct (D1 S) as (Q & HQ & <-). destruct (g2_cyclic g2_gen Q GI gen2_ne HQ) as (d & Hd & ->). apply in_map_iff. exists d. split; [reflexivity | apply I, Hd].
      * exfalso. destruct (X (fun H => S (D2 H))) as [W _]. rewrite W in V. discriminate.
Qed.
Print Assumptions C100_signatures.
(** In the basic scheme each of them is, for a given message, a valid signature under exactly
    one public key. *)
Theorem C100_one_key_partial : forall F h pairs_one privToPub B, exact_build F -> runs_bls F h pairs_one privToPub B ->
  forall (GT : Type) (one : GT) mul inv ok e, pairing one mul inv ok e -> decides_pairing pairs_one one mul e ->
  forall ID m sig H PH, bytes_ok sig -> is_sig sig -> h m tag_NUL = Ret (Some PH) -> affine2 PH H -> in_G2 H ->
  exists pub, bytes_ok pub /\ Verify B pub ID m sig ECC_CURVE_BLS_NUL = Ret SUCCESS /\
    forall pub', bytes_ok pub' -> Verify B pub' ID m sig ECC_CURVE_BLS_NUL = Ret SUCCESS -> pub' = pub.
Proof.
  intros F h pairs_one privToPub B HE R GT one mul inv ok e PR DP ID m sig H PH O (Q & HQ & EQ) HT AH HH.
  assert (H0 : H <> g2_inf) by (intros ->; exact AH).
  destruct (g2_cyclic H Q HH H0 HQ) as (d & Hd & ED). subst Q.
  pose proof (fun pub OP => C99_verify_partial F h pairs_one privToPub B HE R GT one mul inv ok e PR DP ECC_CURVE_BLS_NUL pub ID m sig H PH OP O (or_introl (conj eq_refl HT)) AH HH) as V.
  assert (OK : forall k, bytes_ok (key_bytes (g1_mul k g1_gen))) by (intros k; exact (proj1 (key_bytes_ok repaired repaired_exact repaired_square _))).
  exists (key_bytes (g1_mul d g1_gen)). split; [apply OK|]. split.
  - apply (V _ (OK d)). exists d. split; [exact Hd|]. split; [reflexivity | symmetry; exact EQ].
  - intros pub' OP W. apply (V pub' OP) in W. destruct W as (k & Hk & -> & ES). rewrite <- EQ in ES. apply sig_inj in ES; [|apply mul2_in, HH..].
    rewrite (g2_mul_inj H d k HH H0 Hd Hk ES). reflexivity.
Qed.
Print Assumptions C100_one_key_partial.
(** With the toy pairing and a hash that is the generator of G2: the encoding of the generator
    is such a signature, and its key is the one of the secret key 1. *)
Example C100_met B ID m : exists pub, Verify (demo_sig repaired B) pub ID m (sig_bytes g2_gen) ECC_CURVE_BLS_NUL = Ret SUCCESS /\
  (forall pub', bytes_ok pub' -> Verify (demo_sig repaired B) pub' ID m (sig_bytes g2_gen) ECC_CURVE_BLS_NUL = Ret SUCCESS -> pub' = pub) /\
  pub = key_bytes (g1_mul 1 g1_gen).
Proof.
  destruct (C87_met B) as (_ & _ & _ & PR & DP & _ & AF & IN). destruct C85_builds as [_ HE].
  pose proof (proj1 (sig_bytes_ok g2_gen)) as O.
  destruct (C100_one_key_partial repaired demo_h toy_pairs demo_pub _ HE (demo_sig_runs repaired B) g2pt g2_inf g2_add g2_neg in_G2 toy PR DP ID m (sig_bytes g2_gen) g2_gen g2One O)
    as (pub & OP & V & U); [exists g2_gen; split; [exact IN | reflexivity] | reflexivity | exact AF | exact IN|].
  exists pub. split; [exact V|]. split; [exact U|]. symmetry. apply U; [exact (proj1 (key_bytes_ok repaired repaired_exact repaired_square _))|].
  assert (R1 : 0 <= 1 < bls_r) by (pose proof (prime_ge_2 _ r_prime); lia).
  apply (C99_verify_partial repaired demo_h toy_pairs demo_pub _ HE (demo_sig_runs repaired B) g2pt g2_inf g2_add g2_neg in_G2 toy PR DP ECC_CURVE_BLS_NUL _ ID m (sig_bytes g2_gen) g2_gen g2One
    (proj1 (key_bytes_ok repaired repaired_exact repaired_square _)) O (or_introl (conj eq_refl eq_refl)) AF IN).
  exists 1. split; [exact R1|]. split; [reflexivity|]. unfold g2_mul. rewrite (zmul_1 _ _ _ _ _ G2) by exact (proj1 IN). reflexivity.
Qed.
