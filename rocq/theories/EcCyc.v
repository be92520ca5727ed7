(** On a curve of prime order every point is a multiple of the generator. *)
From Coq Require Import ZArith List Lia Znumtheory Ring Field.
From Verif Require Import Base Fp Weier Group EC AllOrder CycGroup.
Import ListNotations.
Local Open Scope Z_scope.

Section Cyc.
Variable c : wcurve.
Hypothesis Hv : w_valid c.
Hypothesis Hord : forall P, w_on c P -> w_mul c (w_n c) P = pinf c.
Hypothesis Hn : 2 < w_n c.
Hypothesis Hbig : 2 * w_p c + 1 < w_n c * w_n c.
Lemma HWc : is_group (pt c) (pinf c) (w_add c) (w_neg c) (w_on c).
Proof using Hv. exact (w_group c (wv_field c Hv)). Qed.
Lemma no_root_c : no_root c.
Proof using Hv Hord Hn.
  intros x E. set (P := Aff (fp (w_p c)) x (fp_of (w_p c) 0) : pt c). pose proof (Kfa c Hv) as K.
  assert (HP : w_on c P).
  { unfold w_on, P. cbn. refine (eq_trans _ (eq_sym E)). rewrite <- fp_of_mul. reflexivity. }
  assert (H2 : w_mul c 2 P = pinf c).
  { change 2 with (1 + 1). unfold w_mul. rewrite (zmul_add _ _ _ _ _ HWc), (zmul_1 _ _ _ _ _ HWc) by exact HP.
    transitivity (w_add c P (w_neg c P)); [|exact (g_inv _ _ _ _ _ HWc P HP)]. f_equal. }
  pose proof (zmul_order _ _ _ _ _ HWc (w_n c) 2 P HP (wv_nprime c Hv) (Hord P HP) ltac:(discriminate) H2) as M.
  rewrite Z.mod_small in M by lia. discriminate.
Qed.
Definition w_dec (P Q : pt c) : {P = Q} + {P <> Q} := point_dec _ fp_dec P Q.
Lemma gen_ne : w_G c <> pinf c. Proof using. discriminate. Qed.
Theorem w_cyclic P : w_on c P -> exists d, 0 <= d < w_n c /\ P = w_mul c d (w_G c).
Proof using Hv Hord Hn Hbig.
  intros HP. pose proof (AllOrder.enc_range c Hv) as R. pose proof (AllOrder.enc_inj c Hv no_root_c) as I.
  exact (cyc_group (pt c) (pinf c) (w_add c) (w_neg c) (w_on c) HWc w_dec (w_n c) (2 * w_p c + 1) (AllOrder.enc c)
    (wv_nprime c Hv) Hord (fun Q _ => R Q) I Hbig (w_G c) P (wv_Gon c Hv) HP gen_ne).
Qed.
Lemma w_mul_inj d d' : 0 <= d < w_n c -> 0 <= d' < w_n c -> w_mul c d (w_G c) = w_mul c d' (w_G c) -> d = d'.
Proof using Hv Hord.
  intros H H' E. apply (zmul_inj _ _ _ _ _ HWc (w_n c) d d' (w_G c) (wv_Gon c Hv) (wv_nprime c Hv) (wv_nG c Hv) gen_ne) in E.
  rewrite !Z.mod_small in E by assumption. exact E.
Qed.
Lemma w_last : w_mul c (w_n c - 1) (w_G c) = w_neg c (w_G c).
Proof using Hv.
  pose proof (wv_Gon c Hv) as OG. pose proof (wv_nG c Hv) as NG. unfold w_mul in *. rewrite (zmul_sub _ _ _ _ _ HWc) by exact OG.
  rewrite NG, (zmul_1 _ _ _ _ _ HWc) by exact OG. apply (g_0_l _ _ _ _ _ HWc), (g_neg _ _ _ _ _ HWc), OG.
Qed.
Lemma w_neg_ne : w_neg c (w_G c) <> pinf c.
Proof using Hv.
  intros N. apply gen_ne. rewrite <- (gneg_neg _ _ _ _ _ HWc _ (wv_Gon c Hv)), N. exact (gneg_zero _ _ _ _ _ HWc).
Qed.
End Cyc.
