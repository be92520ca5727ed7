(** Property C98: the target group of BLS12-381 is cyclic of order r. *)
From Coq Require Import ZArith List Bool Lia Znumtheory FinFun.
From Verif Require Import Base ModelECDSA ModelApi ModelBlsF SpecBls ModelBls SpecBlsG Fp BlsFp2 Weier Group SpecBlsSig SpecBlsPair ProofBlsI ProofBlsJ ProofBlsK ProofBlsL SpecBlsMap ProofBlsS SpecBlsGT BlsTower SpecBlsAte ModelBlsGT ProofBlsU ProofBlsV ProofBlsW ProofBlsX ProofBlsY ProofBlsZ ProofBlsAA PropsBlsSig PropsBlsGT ModelBlsExp BlsGtNontriv PropsBlsExp.
From Verif Require Tower Group BlsFrob.
Import ListNotations.
Local Open Scope Z_scope.
Lemma zp_inj_g r a s t : prime r -> unit12 a -> zp r a = O12 -> a <> O12 -> zp s a = zp t a -> s mod r = t mod r.
Proof. intros P U Z N. exact (Group.zmul_inj _ _ _ _ _ GM r s t a U P Z N). Qed.
Lemma zp_mod_g r a s : unit12 a -> zp r a = O12 -> zp (s mod r) a = zp s a.
Proof. intros U Z. exact (Group.zmul_mod _ _ _ _ _ GM r s a U Z). Qed.
Lemma zp_one s : zp s O12 = O12.
Proof. exact (Group.zmul_zero _ _ _ _ _ GM s). Qed.
Local Opaque phi zp bls_p bls_r Group.zmul E_final cf.

Lemma r_pos : 0 < bls_r. Proof. exact (Z.lt_trans 0 (2 ^ 64) bls_r eq_refl r_big). Qed.
Lemma zp_inj a s t : zp bls_r a = O12 -> a <> O12 -> zp s a = zp t a -> s mod bls_r = t mod bls_r.
Proof. intros Z N. exact (zp_inj_g bls_r a s t pr_r (valid_unit a Z) Z N). Qed.
Lemma zp_mod a s : zp bls_r a = O12 -> zp (s mod bls_r) a = zp s a.
Proof. intros Z. exact (zp_mod_g bls_r a s (valid_unit a Z) Z). Qed.
Lemma zp_valid a s : zp bls_r a = O12 -> zp bls_r (zp s a) = O12.
Proof.
  intros Z. pose proof (valid_unit a Z) as U. rewrite (zp_zp bls_r s a U), Z.mul_comm, <- (zp_zp s bls_r a U), Z.
  exact (zp_one s).
Qed.
(** the first n powers *)
Definition powers (a : F12) (n : nat) : list F12 := map (fun i => zp (Z.of_nat i) a) (seq 0 n).
Lemma powers_NoDup a n : zp bls_r a = O12 -> a <> O12 -> Z.of_nat n <= bls_r -> NoDup (powers a n).
Proof.
  intros Z N Hn. unfold powers. assert (G : forall m o, Z.of_nat o + Z.of_nat m <= bls_r -> NoDup (map (fun i => zp (Z.of_nat i) a) (seq o m))).
  { induction m as [|m IH]; intros o H; [constructor|]. cbn [seq map]. constructor; [|apply IH; lia].
    intros Hi. apply in_map_iff in Hi. destruct Hi as (k & E & Hk). apply in_seq in Hk. apply (zp_inj a _ _ Z N) in E.
    rewrite !Z.mod_small in E by lia. lia. }
  apply G. cbn [Z.of_nat]. lia.
Qed.
Lemma powers_length a n : length (powers a n) = n.
Proof. unfold powers. rewrite map_length, seq_length. reflexivity. Qed.
Lemma roots_r (l : list F12) : NoDup l -> (forall a, In a l -> zp bls_r a = O12) -> Z.of_nat (length l) <= bls_r.
Proof.
  intros N H. pose proof r_pos as R.
  assert (E : forall a, zp bls_r a = BlsFrob.pw F12 O12 Mul12 a (Z.to_nat bls_r)).
  { intros a. rewrite <- (zp_pw (Z.to_nat bls_r) a), Z2Nat.id by (apply Z.lt_le_incl, r_pos). reflexivity. }
  revert R E H. generalize (zp bls_r). generalize bls_r. intros r f R E H.
  assert (L : (length l <= Z.to_nat r)%nat).
  { apply (unity_roots F12 Z12 O12 Add12 Mul12 Sub12 Opp12 Div12 Inv12 K12 F12_dec); [lia | exact N|]. intros a Ha. rewrite <- E. exact (H a Ha). }
  lia.
Qed.
Lemma nat_r : Z.of_nat (Z.to_nat bls_r) = bls_r.
Proof. apply Z2Nat.id, Z.lt_le_incl, r_pos. Qed.
Lemma cyclic g a : zp bls_r g = O12 -> g <> O12 -> zp bls_r a = O12 -> exists s, 0 <= s < bls_r /\ a = zp s g.
Proof.
  intros Z N V. pose proof nat_r as R. revert R. generalize (Z.to_nat bls_r) as n. intros n R.
  destruct (in_dec F12_dec a (powers g n)) as [I|I].
  - apply in_map_iff in I. destruct I as (k & E & Hk). apply in_seq in Hk. exists (Z.of_nat k). split; [lia | symmetry; exact E].
  - exfalso. assert (L : Z.of_nat (length (a :: powers g n)) <= bls_r).
    { apply roots_r; [constructor; [exact I | apply powers_NoDup; [exact Z | exact N | lia]]|].
      intros b [<-|Hb]; [exact V|]. apply in_map_iff in Hb. destruct Hb as (k & <- & _). apply zp_valid, Z. }
    cbn [length] in L. rewrite powers_length in L. lia.
Qed.
Section Code.
Variable F : fbuild.
Hypothesis HF : exact_but_square F.
Lemma not_one x a : rep12 x a -> x <> fp12_one -> a <> O12.
Proof using. intros A N ->. apply N. exact (rep12_inj _ _ _ A one12_rep). Qed.
Lemma exp_rep x a s : rep12 x a -> zp bls_r a = O12 -> 0 <= s -> rep12 (gt_ExpBig F x s) (zp s a).
Proof using HF. intros A Z Hs. exact (proj1 (C97_exp_partial F HF x a s A (proj2 (valid_iff F HF x a A) Z) Hs)). Qed.
End Code.

(** Two exponents that are not negative give the same power of an element other than one
    exactly when they agree modulo r. *)
Theorem C98_exponents : forall F, exact_but_square F -> forall x a, gt_of x a -> gt_IsValid F x = true -> x <> fp12_one ->
  forall s t, 0 <= s -> 0 <= t -> (gt_ExpBig F x s = gt_ExpBig F x t <-> s mod bls_r = t mod bls_r).
Proof.
  intros F HF x a A V N s t Hs Ht. apply (valid_iff F HF x a A) in V. pose proof (not_one x a A N) as Na.
  pose proof (exp_rep F HF x a s A V Hs) as S. pose proof (exp_rep F HF x a t A V Ht) as T. split; intros E.
  - apply (zp_inj a s t V Na). rewrite E in S. exact (rep12_fun' _ _ _ S T).
  - rewrite <- (zp_mod a s V), E, (zp_mod a t V) in S. exact (rep12_inj _ _ _ S T).
Qed.
Print Assumptions C98_exponents.
(** Every element other than one generates the group. *)
Theorem C98_generates : forall F, exact_but_square F -> forall g b x a,
  gt_of g b -> gt_IsValid F g = true -> g <> fp12_one -> gt_of x a -> gt_IsValid F x = true ->
  exists s, 0 <= s < bls_r /\ gt_ExpBig F g s = x /\ forall t, 0 <= t < bls_r -> gt_ExpBig F g t = x -> t = s.
Proof.
  intros F HF g b x a B G N A V. pose proof (proj1 (valid_iff F HF g b B) G) as Zb. apply (valid_iff F HF x a A) in V.
  destruct (cyclic b a Zb (not_one g b B N) V) as (s & Hs & E). exists s. split; [exact Hs|].
  assert (X : gt_ExpBig F g s = x).
  { pose proof (exp_rep F HF g b s B Zb (proj1 Hs)) as S. rewrite <- E in S. exact (rep12_inj _ _ _ S A). }
  split; [exact X|]. intros t Ht T. rewrite <- X in T.
  pose proof (proj1 (C98_exponents F HF g b B G N t s (proj1 Ht) (proj1 Hs)) T) as M. rewrite !Z.mod_small in M by assumption. exact M.
Qed.
Print Assumptions C98_generates.
(** FromBytes accepts exactly r byte strings. *)
Theorem C98_strings : forall F, exact_but_square F -> exists l : list bytes, NoDup l /\ Z.of_nat (length l) = bls_r /\
  forall b, bytes_ok b -> (In b l <-> exists x, gt_FromBytes F b = Some x).
Proof.
  intros F HF. destruct gt_nontrivial as (g & Z & N). pose proof nat_r as R. revert R. generalize (Z.to_nat bls_r) as n. intros n R.
  exists (map gt_bytes (powers g n)). split; [|split].
  - apply Injective_map_NoDup; [|apply powers_NoDup; [exact Z | exact N | lia]].
    intros a b E. rewrite <- !gt_enc in E. exact (enc12_inj _ _ E).
  - rewrite map_length, powers_length. exact R.
  - intros b O. pose proof (proj1 (proj2 (C92_bytes F HF)) b O) as H. split; intros I.
    + apply in_map_iff in I. destruct I as (a & E & Ia). apply in_map_iff in Ia. destruct Ia as (k & Ek & _).
      destruct (gt_FromBytes F b) as [x|]; [exists x; reflexivity|]. exfalso. apply (H a); [rewrite <- Ek; apply zp_valid, Z | exact E].
    + destruct I as (x & E). rewrite E in H. destruct H as (a & _ & V & Eb & _). rewrite <- Eb. apply in_map.
      destruct (cyclic g a Z N V) as (s & Hs & ->). apply in_map_iff. exists (Z.to_nat s). split; [rewrite Z2Nat.id by lia; reflexivity|].
      apply in_seq. split; [lia|]. cbn [Nat.add]. lia.
Qed.
Print Assumptions C98_strings.
(** There is an element other than one, in either build. *)
Example C98_met : exact_but_square portable /\ exact_but_square repaired /\
  forall F, exact_but_square F -> exists x a, gt_of x a /\ gt_IsValid F x = true /\ x <> fp12_one.
Proof.
  split; [exact portable_exact|]. split; [exact repaired_exact|]. intros F HF.
  destruct (C97_negative_refuted F HF) as (x & a & A & V & N & _). exists x, a. split; [exact A|]. split; [exact V|].
  intros ->. exact (N (rep12_fun' _ _ _ A one12_rep)).
Qed.
