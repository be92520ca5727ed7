(** At most four points satisfy the ECDSA equation of one signature and hash. *)
From Coq Require Import ZArith List Lia Znumtheory.
From Verif Require Import Base Fp Weier Group EC AllOrder EcCyc SpecECDSA.
Import ListNotations.
Local Open Scope Z_scope.

Section Four.
Variable c : wcurve.
Hypothesis Hv : w_valid c.
Hypothesis Hord : forall P, w_on c P -> w_mul c (w_n c) P = pinf c.
Hypothesis Hn : 2 < w_n c.
Hypothesis Hp : w_p c < 2 * w_n c.
Local Notation n := (w_n c).
Local Notation HG := (HWc c Hv).
Lemma inv_unique s w w' : (s * w) mod n = 1 -> (s * w') mod n = 1 -> w mod n = w' mod n.
Proof using Hn.
  intros E E'. transitivity (((s * w') mod n * w) mod n); [rewrite E', Z.mul_1_l; reflexivity|].
  transitivity (((s * w) mod n * w') mod n); [|rewrite E, Z.mul_1_l; reflexivity].
  rewrite !Z.mul_mod_idemp_l by lia. f_equal. ring.
Qed.
Lemma scale_inj k P Q : rel_prime k n -> w_on c P -> w_on c Q -> w_mul c k P = w_mul c k Q -> P = Q.
Proof using Hv Hord.
  intros R HP HQ E. destruct (rel_prime_bezout k n R) as [u v U].
  assert (S : forall X, w_on c X -> X = w_mul c u (w_mul c k X)).
  { intros X HX. pose proof (Hord X HX) as NX. unfold w_mul in *. rewrite <- (zmul_mul _ _ _ _ _ HG u k X HX).
    transitivity (zmul (pinf c) (w_add c) (w_neg c) 1 X); [symmetry; exact (zmul_1 _ _ _ _ _ HG X HX)|].
    rewrite <- U, (zmul_add _ _ _ _ _ HG (u * k) (v * n) X HX), (zmul_mul _ _ _ _ _ HG v n X HX), NX, (zmul_zero _ _ _ _ _ HG v).
    apply (gadd_0_r _ _ _ _ _ HG), (zmul_ok _ _ _ _ _ HG), HX. }
  rewrite (S P HP), (S Q HQ), E. reflexivity.
Qed.
Lemma rw_prime r s w : 0 < r < n -> (s * w) mod n = 1 -> rel_prime ((r * w) mod n) n.
Proof using Hv Hn.
  intros Hr Hw. apply rel_prime_sym, prime_rel_prime; [exact (wv_nprime c Hv)|]. intros D.
  apply Z.mod_divide in D; [|lia]. rewrite Z.mod_mod in D by lia.
  assert (E : r mod n = 0).
  { transitivity ((r * ((s * w) mod n)) mod n); [rewrite Hw, Z.mul_1_r; reflexivity|].
    rewrite Z.mul_mod_idemp_r by lia. replace (r * (s * w)) with (r * w * s) by ring. rewrite <- Z.mul_mod_idemp_l, D by lia. reflexivity. }
  rewrite Z.mod_small in E by lia. lia.
Qed.
Theorem at_most_four e r s (l : list (pt c)) : NoDup l -> (forall Q, In Q l -> w_on c Q /\ ecdsa_valid c Q e r s) -> (length l <= 4)%nat.
Proof using Hv Hord Hn Hp.
  intros N H. destruct l as [|Q0 l0] eqn:El; [cbn; lia|].
  destruct (H Q0 (or_introl eq_refl)) as (_ & Hr & _ & w & Hw & _). rewrite <- El in *. clear El Q0 l0.
  set (f := fun Q => w_add c (w_mul c ((e * w) mod n) (w_G c)) (w_mul c ((r * w) mod n) Q)).
  assert (OM : forall k P, w_on c P -> w_on c (w_mul c k P)) by exact (fun k P HP => zmul_ok _ _ _ _ _ HG k P HP).
  pose proof (OM ((e * w) mod n) _ (wv_Gon c Hv)) as OG.
  assert (OF : forall Q, w_on c Q -> w_on c (f Q)) by (intros Q HQ; exact (g_add _ _ _ _ _ HG _ _ OG (OM _ _ HQ))).
  assert (FI : forall P Q, w_on c P -> w_on c Q -> f P = f Q -> P = Q).
  { intros P Q HP HQ E. apply (gcancel _ _ _ _ _ HG) in E; [|exact OG | apply OM; assumption..].
    exact (scale_inj _ P Q (rw_prime r s w Hr Hw) HP HQ E). }
  assert (FX : forall Q, In Q l -> f Q <> pinf c /\ px c (f Q) mod n = r).
  { intros Q HQ. destruct (H Q HQ) as (_ & _ & _ & w' & Hw' & V). pose proof (inv_unique s w w' Hw Hw') as W.
    assert (M : forall a, (a * w) mod n = (a * w') mod n) by (intros a; rewrite <- Z.mul_mod_idemp_r, W, Z.mul_mod_idemp_r by lia; reflexivity).
    unfold f. rewrite !M. exact V. }
  set (code := fun Q => AllOrder.enc c (f Q)). set (four := [2 * r; 2 * r + 1; 2 * (r + n); 2 * (r + n) + 1]).
  assert (ND : NoDup (map code l)).
  { clear FX. induction N as [|Q l NQ N IH]; [constructor|]. cbn [map]. constructor; [|apply IH; intros P HP; apply H; right; exact HP].
    intros I. apply in_map_iff in I. destruct I as (P & E & HP). apply NQ.
    assert (OP : w_on c P) by exact (proj1 (H P (or_intror HP))). assert (OQ : w_on c Q) by exact (proj1 (H Q (or_introl eq_refl))).
    unfold code in E. apply (AllOrder.enc_inj c Hv (no_root_c c Hv Hord Hn)) in E; [|apply OF; assumption..]. rewrite <- (FI P Q OP OQ E). exact HP. }
  assert (IN : incl (map code l) four).
  { intros z I. apply in_map_iff in I. destruct I as (Q & <- & HQ). destruct (FX Q HQ) as [NI X]. unfold code. destruct (f Q) as [|x y]; [contradiction NI; reflexivity|].
    cbn [px] in X. cbn [AllOrder.enc]. pose proof (fval_bound (w_p c) x ltac:(pose proof (AllOrder.p_pos c Hv); lia)) as B.
    pose proof (Z.mod_pos_bound (fval y) 2 eq_refl) as Y. pose proof (Z.div_mod (fval x) n ltac:(lia)) as D. rewrite X in D.
    assert (Qx : fval x / n = 0 \/ fval x / n = 1).
    { assert (0 <= fval x / n < 2) by (split; [apply Z.div_pos; lia | apply Z.div_lt_upper_bound; lia]). lia. }
    unfold four. cbn [In]. destruct Qx as [q|q]; rewrite q in D; lia. }
  pose proof (NoDup_incl_length ND IN) as L. rewrite map_length in L. exact L.
Qed.
(** There is always a second one: that for which the verification arrives at -R. *)
Lemma px_neg R : px c (w_neg c R) = px c R.
Proof using. destruct R; reflexivity. Qed.
Lemma neg_eq R : w_on c R -> w_neg c R = R -> R = pinf c.
Proof using Hv Hord Hn.
  intros HR E. apply (scale_inj 2); [|exact HR | exact (g_zero _ _ _ _ _ HG) |].
  - apply rel_prime_sym, prime_rel_prime; [exact (wv_nprime c Hv)|]. intros D. apply Z.divide_pos_le in D; lia.
  - unfold w_mul. rewrite (zmul_zero _ _ _ _ _ HG). change 2 with (2 * 1). rewrite (zmul_double _ _ _ _ _ HG 1 R HR), (zmul_1 _ _ _ _ _ HG R HR).
    rewrite <- E at 1. apply (gneg_l _ _ _ _ _ HG), HR.
Qed.
Lemma solve_scale k X : rel_prime k n -> w_on c X -> exists Q, w_on c Q /\ w_mul c k Q = X.
Proof using Hv Hord.
  intros R HX. destruct (rel_prime_bezout k n R) as [u v U]. exists (w_mul c u X). split; [exact (zmul_ok _ _ _ _ _ HG u X HX)|].
  pose proof (Hord X HX) as NX. unfold w_mul in *. rewrite <- (zmul_mul _ _ _ _ _ HG k u X HX).
  transitivity (zmul (pinf c) (w_add c) (w_neg c) 1 X); [|exact (zmul_1 _ _ _ _ _ HG X HX)].
  rewrite <- U, (zmul_add _ _ _ _ _ HG (u * k) (v * n) X HX), (zmul_mul _ _ _ _ _ HG v n X HX), NX, (zmul_zero _ _ _ _ _ HG v), (Z.mul_comm u k).
  symmetry. apply (gadd_0_r _ _ _ _ _ HG), (zmul_ok _ _ _ _ _ HG), HX.
Qed.
Theorem second_key Q e r s : w_on c Q -> ecdsa_valid c Q e r s -> exists Q', w_on c Q' /\ Q' <> Q /\ ecdsa_valid c Q' e r s.
Proof using Hv Hord Hn.
  intros HQ (Hr & Hs & w & Hw & NI & X).
  set (A := w_mul c ((e * w) mod n) (w_G c)) in *. set (v := (r * w) mod n) in *.
  assert (OA : w_on c A) by exact (zmul_ok _ _ _ _ _ HG _ _ (wv_Gon c Hv)).
  assert (OV : w_on c (w_mul c v Q)) by exact (zmul_ok _ _ _ _ _ HG _ _ HQ).
  set (R := w_add c A (w_mul c v Q)) in *. assert (OR : w_on c R) by exact (g_add _ _ _ _ _ HG _ _ OA OV).
  pose proof (g_neg _ _ _ _ _ HG _ OA) as NA. pose proof (g_neg _ _ _ _ _ HG _ OR) as NR.
  destruct (solve_scale v (w_add c (w_neg c A) (w_neg c R)) (rw_prime r s w Hr Hw) (g_add _ _ _ _ _ HG _ _ NA NR)) as (Q' & HQ' & E).
  assert (F : w_add c A (w_mul c v Q') = w_neg c R).
  { rewrite E, (g_assoc _ _ _ _ _ HG) by assumption. rewrite (g_inv _ _ _ _ _ HG) by exact OA. apply (g_0_l _ _ _ _ _ HG), NR. }
  exists Q'. split; [exact HQ'|]. split.
  - intros ->. apply NI, neg_eq; [exact OR|]. rewrite <- F. reflexivity.
  - split; [exact Hr|]. split; [exact Hs|]. exists w. split; [exact Hw|]. cbv zeta. fold A v. rewrite F, px_neg. split; [|exact X].
    intros Z. apply NI. rewrite <- (gneg_neg _ _ _ _ _ HG R OR), Z. apply (gneg_zero _ _ _ _ _ HG).
Qed.
End Four.
