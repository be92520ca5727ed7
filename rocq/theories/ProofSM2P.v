(** The SM2 point arithmetic of ModelSM2P.v computes the group law whenever no
    multiplication it performs underflows. *)
From Coq Require Import ZArith List Lia Znumtheory Ring Field Bool.
From Verif Require Import Base Fp Weier Jac Group EC Curves AllOrder ModelECDSA ModelK1
  SpecECDSA ProofECDSA ModelSM2F ProofSM2M ModelSM2P.
Import ListNotations.
Open Scope Z_scope.

(** ** Executions without underflow *)
Definition good {A} (m : watched A) (Q : A -> Prop) : Prop := snd m = true -> Q (fst m).

Lemma good_ret {A} (a : A) (Q : A -> Prop) : Q a -> good (ret a) Q.
Proof. intros H _. exact H. Qed.
Lemma good_bind {A B} (m : watched A) (f : A -> watched B) (Q : A -> Prop) (R : B -> Prop) :
  good m Q -> (forall a, Q a -> good (f a) R) -> good (bind m f) R.
Proof.
  intros H1 H2 H. destruct m as [a s]. unfold bind in *. specialize (H2 a).
  destruct (f a) as [b s'] eqn:E. cbn [fst snd] in *.
  apply andb_true_iff in H as [Hs Hs']. apply H2; auto.
Qed.
Lemma good_weaken {A} (m : watched A) (Q R : A -> Prop) : good m Q -> (forall a, Q a -> R a) -> good m R.
Proof. intros H1 H2 H. auto. Qed.
Lemma good_kept {A} mask (m : watched A) (Q : A -> Prop) :
  (mask = true -> good m Q) -> good (kept mask m) (fun a => mask = true -> Q a).
Proof.
  intros H S E. subst mask. unfold kept in *. cbn [fst snd negb orb] in *. apply H; auto.
Qed.

Section WithCurve.
Variable c : wcurve.
Hypothesis Hcp : w_p c = sm2_P.
Hypothesis Hca : fp_of (w_p c) (w_a c) = fp_of (w_p c) sm2_a.
Hypothesis Hcb : w_b c = sm2_b.
Hypothesis Hv : w_valid c.
Hypothesis Hb : w_b c mod w_p c <> 0.
Let Hf := wv_field c Hv.
Let Hp := wv_prime c Hf.
Let HW := w_group c Hf.
Local Notation F := (fp_of (w_p c)).

Lemma Kf4 : field_theory (F 0) (F 1) fp_add fp_mul fp_sub fp_opp fp_div fp_inv eq.
Proof. exact (fp_field _ Hp). Qed.
Add Field KFP : Kf4.

(** ** Field elements *)
Definition fv (a : fe) (x : fp (w_p c)) : Prop := fe_ok a /\ F (sm2_to_big a) = x.

Lemma modF z : F (z mod sm2_P) = F z.
Proof. rewrite <- Hcp. apply fp_of_mod. Qed.
Lemma fv_add a b x y : fv a x -> fv b y -> fv (sm2_add a b) (fp_add x y).
Proof.
  intros [A <-] [B <-]. destruct (sm2_add_ok a b A B) as [O E]. split; [exact O|].
  rewrite E, modF, fp_of_add. reflexivity.
Qed.
Lemma fv_sub a b x y : fv a x -> fv b y -> fv (sm2_sub a b) (fp_sub x y).
Proof.
  intros [A <-] [B <-]. destruct (sm2_sub_ok a b A B) as [O E]. split; [exact O|].
  rewrite E, modF, fp_of_sub. reflexivity.
Qed.
Lemma good_mul a b x y : fv a x -> fv b y -> good (mul a b) (fun r => fv r (fp_mul x y)).
Proof.
  intros [A <-] [B <-] S. cbn [mul fst snd] in *. destruct (sm2_mul_ok a b A B S) as [O E].
  split; [exact O|]. rewrite E, modF, fp_of_mul. reflexivity.
Qed.
Lemma good_square a x : fv a x -> good (square a) (fun r => fv r (fp_mul x x)).
Proof.
  intros [A <-] S. cbn [square fst snd] in *. destruct (sm2_square_ok a A S) as [O E].
  split; [exact O|]. rewrite E, modF, fp_of_mul. reflexivity.
Qed.
Lemma fv_from z : fv (sm2_from_big z) (F z).
Proof.
  destruct (sm2_from_big_ok z) as [O E]. split; [exact O|]. rewrite E. apply modF.
Qed.
Lemma fv_eq a b x y : fv a x -> fv b y -> (sm2_to_big a =? sm2_to_big b) = true <-> x = y.
Proof.
  intros [_ <-] [_ <-]. rewrite Z.eqb_eq. split; [intros ->; reflexivity|].
  intros E. apply fp_of_eq in E. rewrite Hcp in E.
  pose proof (to_big_range a). pose proof (to_big_range b).
  rewrite !Z.mod_small in E by assumption. exact E.
Qed.
Lemma fv_0 a x : fv a x -> (sm2_to_big a =? 0) = true <-> x = F 0.
Proof.
  intros [_ <-]. rewrite Z.eqb_eq. split; [intros ->; reflexivity|].
  intros E. apply fp_of_0 in E. rewrite Hcp in E.
  pose proof (to_big_range a). rewrite Z.mod_small in E by assumption. exact E.
Qed.
Lemma fv_val a x : fv a x -> sm2_to_big a = fval x.
Proof.
  intros [_ <-]. rewrite fval_of, Hcp. symmetry. apply Z.mod_small, to_big_range.
Qed.


Definition fe_okb (a : fe) : bool :=
  Nat.eqb (length a) 9 &&
  forallb (fun t => (0 <=? snd t) && (snd t <? fst t))
    (combine [2^30; 2^29; 2^30; 2^29; 2^30; 2^29; 2^30; 2^29; 2^30] a).
Lemma forall2b l : forall a, length a = length l ->
  forallb (fun t => (0 <=? snd t) && (snd t <? fst t)) (combine l a) = true ->
  Forall2 (fun b x => 0 <= x < b) l a.
Proof.
  induction l as [|b l IH]; intros [|x a] L H; try discriminate; constructor.
  - cbn in H. apply andb_true_iff in H as [H _]. apply andb_true_iff in H as [H1 H2].
    apply Z.leb_le in H1. apply Z.ltb_lt in H2. auto.
  - cbn in H. apply andb_true_iff in H as [_ H]. apply IH; auto.
Qed.
Lemma fe_okb_ok a : fe_okb a = true -> fe_ok a.
Proof.
  intros H. apply andb_true_iff in H as [L H]. apply Nat.eqb_eq in L.
  apply forall2b; [exact L|exact H].
Qed.
Lemma fv_const a z : fe_okb a && (sm2_to_big a =? z) = true -> fv a (F z).
Proof.
  intros H. apply andb_true_iff in H as [H E]. apply Z.eqb_eq in E.
  split; [apply fe_okb_ok; exact H|rewrite E; reflexivity].
Qed.

Lemma fv_one : fv sm2_one (F 1).
Proof. apply fv_const. vm_compute. reflexivity. Qed.
Lemma fv_zero : fv fe_zero (F 0).
Proof. apply fv_const. vm_compute. reflexivity. Qed.
Lemma fv_2 : fv (nth 2 sm2_factor []) (F 2).
Proof. apply fv_const. vm_compute. reflexivity. Qed.
Lemma fv_3 : fv (nth 3 sm2_factor []) (F 3).
Proof. apply fv_const. vm_compute. reflexivity. Qed.
Lemma fv_4 : fv (nth 4 sm2_factor []) (F 4).
Proof. apply fv_const. vm_compute. reflexivity. Qed.
Lemma fv_8 : fv (nth 8 sm2_factor []) (F 8).
Proof. apply fv_const. vm_compute. reflexivity. Qed.
Lemma fv_fa : fv sm2_fa (F (w_a c)).
Proof. rewrite Hca. apply fv_from. Qed.
Lemma fv_fb : fv sm2_fb (F (w_b c)).
Proof. rewrite Hcb. apply fv_from. Qed.

Lemma N2 : F 2 = fp_add (F 1) (F 1).
Proof. rewrite <- fp_of_add. reflexivity. Qed.
Lemma N3 : F 3 = fp_add (fp_add (F 1) (F 1)) (F 1).
Proof. rewrite <- !fp_of_add. reflexivity. Qed.
Lemma N4 : F 4 = fp_mul (F 2) (F 2).
Proof. rewrite <- fp_of_mul. reflexivity. Qed.
Lemma N8 : F 8 = fp_mul (fp_mul (F 2) (F 2)) (F 2).
Proof. rewrite <- !fp_of_mul. reflexivity. Qed.

(** ** Points *)
Local Notation jc := (jac (fp (w_p c)) (F 0) fp_mul fp_div fp_dec).
Definition jrel (t : jpoint) (P : pt c) : Prop :=
  let '(a, b, d) := t in exists x y z, fv a x /\ fv b y /\ fv d z /\ jc x y z = P.

Ltac fvs :=
  lazymatch goal with
  | |- fv (sm2_add _ _) _ => eapply fv_add; fvs
  | |- fv (sm2_sub _ _) _ => eapply fv_sub; fvs
  | |- fv sm2_fa _ => exact fv_fa
  | |- fv sm2_fb _ => exact fv_fb
  | |- fv sm2_one _ => exact fv_one
  | |- fv (nth 2 _ _) _ => exact fv_2
  | |- fv (nth 3 _ _) _ => exact fv_3
  | |- fv (nth 4 _ _) _ => exact fv_4
  | |- fv (nth 8 _ _) _ => exact fv_8
  | H : fv ?a _ |- fv ?a _ => exact H
  end.
Ltac gstep :=
  lazymatch goal with
  | |- good (bind (mul _ _) _) _ => eapply good_bind; [eapply good_mul; fvs | cbv beta; intros ? ?]
  | |- good (bind (square _) _) _ => eapply good_bind; [eapply good_square; fvs | cbv beta; intros ? ?]
  end.

Lemma good_double t P : jrel t P -> good (sm2_point_double t) (fun r => jrel r (w_add c P P)).
Proof.
  destruct t as [[a b] d]. intros (x & y & z & Ha & Hb' & Hd & HP).
  unfold sm2_point_double, scalar. cbv zeta. repeat gstep.
  apply good_ret. eexists _, _, _.
  split; [fvs|]. split; [fvs|]. split; [fvs|].
  rewrite <- HP.
  pose proof (jac_dbl_gen _ _ _ _ _ _ _ _ _ Kf4 fp_dec (F (w_a c)) (w_char2 c Hf) x y z) as HD.
  cbv zeta in HD. unfold w_add. rewrite (HD _ eq_refl). clear HD.
  rewrite N8, N4, !N3, !N2. apply f_equal3; ring.
Qed.

Lemma jac_scale l X Y Z : l <> F 0 ->
  jc (fp_mul (fp_mul l l) X) (fp_mul (fp_mul (fp_mul l l) l) Y) (fp_mul l Z) = jc X Y Z.
Proof.
  intros Hl. destruct (fp_dec Z (F 0)) as [->|HZ].
  { replace (fp_mul l (F 0)) with (F 0) by ring. rewrite !jac_0. reflexivity. }
  assert (HlZ : fp_mul l Z <> F 0)
    by (apply (k_mul_ne _ _ _ _ _ _ _ _ _ Kf4 fp_dec); assumption).
  rewrite (jac_ne _ _ _ _ fp_dec _ _ _ HlZ), (jac_ne _ _ _ _ fp_dec _ _ _ HZ).
  f_equal; field; auto.
Qed.


Lemma aff_inj (x y x' y' : fp (w_p c)) : Aff _ x y = Aff _ x' y' -> x = x' /\ y = y'.
Proof.
  intros E. split; [exact (f_equal (fun P => match P with Aff _ u _ => u | Inf _ => x end) E)|].
  exact (f_equal (fun P => match P with Aff _ _ u => u | Inf _ => y end) E).
Qed.

(** Addition; its doubling case yields infinity. *)
Lemma good_add t1 t2 P Q : jrel t1 P -> jrel t2 Q -> w_on c P -> w_on c Q ->
  good (sm2_point_add t1 t2)
    (fun r => (P <> Q -> jrel (snd r) (w_add c P Q)) /\ (P = Q -> jrel (snd r) (pinf c))).
Proof.
  destruct t1 as [[a1 b1] d1], t2 as [[a2 b2] d2].
  intros (x1 & y1 & z1 & Ha1 & Hb1 & Hd1 & HP) (x2 & y2 & z2 & Ha2 & Hb2 & Hd2 & HQ) OP OQ.
  unfold sm2_point_add, scalar.
  destruct (sm2_to_big d1 =? 0) eqn:E1.
  { apply (fv_0 _ _ Hd1) in E1. assert (P = pinf c) as ->.
    { rewrite <- HP, E1. apply jac_0. }
    apply good_ret. cbn [snd].
    assert (R : jrel (a2, b2, d2) Q) by (exists x2, y2, z2; auto).
    split; [intros _; exact R|intros <-; exact R]. }
  destruct (sm2_to_big d2 =? 0) eqn:E2.
  { apply (fv_0 _ _ Hd2) in E2. assert (Q = pinf c) as ->.
    { rewrite <- HQ, E2. apply jac_0. }
    apply good_ret. cbn [snd].
    assert (R : jrel (a1, b1, d1) P) by (exists x1, y1, z1; auto).
    split; [intros _; destruct P; exact R|intros ->; exact R]. }
  assert (Z1 : z1 <> F 0). { intros E. apply (fv_0 _ _ Hd1) in E. congruence. }
  assert (Z2 : z2 <> F 0). { intros E. apply (fv_0 _ _ Hd2) in E. congruence. }
  do 8 gstep.
  match goal with |- good (bind (if ?a && ?b then _ else _) _) _ => set (ex := a); set (ey := b) end.
  assert (Hex : ex = true <-> fp_mul x1 (fp_mul z2 z2) = fp_mul x2 (fp_mul z1 z1))
    by (eapply fv_eq; eassumption).
  assert (Hey : ey = true <-> fp_mul y1 (fp_mul (fp_mul z2 z2) z2) = fp_mul y2 (fp_mul (fp_mul z1 z1) z1))
    by (eapply fv_eq; eassumption).
  clearbody ex ey.
  eapply (good_bind _ _ (fun r => exists w, fv (snd r) w /\ (ex && ey = false -> w = z1))).
  { destruct (ex && ey) eqn:E.
    - eapply good_weaken; [apply (good_double _ P); exists x1, y1, z1; auto|].
      intros [[? ?] ?] (? & ? & w & ? & ? & Hw & _). exists w. split; [exact Hw|discriminate].
    - apply good_ret. exists z1. auto. }
  intros [[u v] w'] (w & Hw & Ew). cbn [snd] in Hw |- *. cbv zeta.
  repeat gstep. apply good_ret. cbn [snd].
  destruct ex.
  - (* same x: h = 0 *)
    assert (Hx : fp_mul x1 (fp_mul z2 z2) = fp_mul x2 (fp_mul z1 z1)) by (apply Hex; reflexivity).
    assert (R : (exists P', P' = pinf c /\ (P <> Q -> P' = w_add c P Q))).
    { exists (pinf c). split; [reflexivity|]. intros NE. rewrite <- HP, <- HQ. symmetry.
      apply (jac_add_opp _ _ _ _ _ _ _ _ _ Kf4 fp_dec (F (w_a c)) (F (w_b c))).
      - exact Z1.
      - exact Z2.
      - symmetry. exact Hx.
      - intros Hy. apply NE. rewrite <- HP, <- HQ. symmetry.
        apply (jac_eq _ _ _ _ _ _ _ _ _ Kf4 fp_dec); auto.
      - rewrite HP. exact OP.
      - rewrite HQ. exact OQ. }
    destruct R as (P' & -> & R).
    match goal with |- _ /\ (_ -> jrel ?t _) => assert (J : jrel t (pinf c)) end.
    { eexists _, _, _. split; [fvs|]. split; [fvs|]. split; [fvs|].
      rewrite Hx. match goal with |- jc _ _ ?z = _ => replace z with (F 0) by ring end. apply jac_0. }
    split; [intros NE; rewrite <- (R NE); exact J|intros _; exact J].
  - rewrite (Ew eq_refl) in *. 
    assert (Nx : fp_sub (fp_mul x2 (fp_mul z1 z1)) (fp_mul x1 (fp_mul z2 z2)) <> F 0).
    { intros E. apply (k_sub0 _ _ _ _ _ _ _ _ _ Kf4) in E. symmetry in E. apply Hex in E. discriminate. }
    split.
    + intros _. eexists _, _, _. split; [fvs|]. split; [fvs|]. split; [fvs|].
      rewrite <- HP, <- HQ.
      pose proof (jac_add_ne _ _ _ _ _ _ _ _ _ Kf4 fp_dec (F (w_a c)) (w_char2 c Hf) x1 y1 z1 x2 y2 z2 Z1 Z2) as HA.
      cbv zeta in HA. unfold w_add. rewrite (HA Nx _ eq_refl). clear HA.
      rewrite !N2. etransitivity; [symmetry; apply (jac_scale (fp_add (F 1) (F 1))); exact (w_char2 c Hf)|].
      apply f_equal3; ring.
    + intros E. exfalso. apply Nx. rewrite <- HP, <- HQ in E.
      rewrite (jac_ne _ _ _ _ fp_dec _ _ _ Z1), (jac_ne _ _ _ _ fp_dec _ _ _ Z2) in E.
      apply aff_inj in E as [Ex _].
      transitivity (fp_mul (fp_mul (fp_sub (fp_div x2 (fp_mul z2 z2)) (fp_div x1 (fp_mul z1 z1))) (fp_mul z1 z1)) (fp_mul z2 z2)).
      * field. auto.
      * rewrite <- Ex. ring.
Qed.

Lemma good_mixed t a b x2 y2 P : jrel t P -> fv a x2 -> fv b y2 ->
  P <> pinf c -> px c P <> fval x2 ->
  good (sm2_point_add_mixed t a b) (fun r => jrel r (w_add c P (Aff _ x2 y2))).
Proof.
  destruct t as [[a1 b1] d1]. intros (x1 & y1 & z1 & Ha1 & Hb1 & Hd1 & HP) Hx Hy NP Nx.
  assert (Z1 : z1 <> F 0). { intros ->. apply NP. rewrite <- HP. apply jac_0. }
  unfold sm2_point_add_mixed. cbv zeta. repeat gstep. apply good_ret.
  eexists _, _, _. split; [fvs|]. split; [fvs|]. split; [fvs|].
  assert (Nh : fp_sub (fp_mul x2 (fp_mul z1 z1)) x1 <> F 0).
  { intros E. apply Nx. rewrite <- HP, (jac_ne _ _ _ _ fp_dec _ _ _ Z1). cbn [px].
    f_equal. apply (k_sub0 _ _ _ _ _ _ _ _ _ Kf4) in E. rewrite <- E. field. auto. }
  rewrite <- HP.
  pose proof (jac_madd _ _ _ _ _ _ _ _ _ Kf4 fp_dec (F (w_a c)) x1 y1 z1 x2 y2 ) as HA.
  cbv zeta in HA. unfold w_add. rewrite (HA Z1 Nh _ eq_refl). clear HA.
  etransitivity; [|apply (jac_scale (fp_add (F 1) (F 1))); exact (w_char2 c Hf)].
  apply f_equal3; ring.
Qed.

Lemma good_affine t P : jrel t P -> good (sm2_to_affine t) (fun r => r = (px c P, py c P)).
Proof.
  destruct t as [[a b] d]. intros (x & y & z & Ha & Hb' & Hd & HP).
  unfold sm2_to_affine. cbv zeta.
  set (i := match mod_inverse (sm2_to_big d) sm2_P with Some i => i | None => sm2_to_big d end).
  pose proof (fv_from i) as Hi. set (fi := sm2_from_big i) in *. clearbody fi.
  repeat gstep. apply good_ret.
  assert (Ei : (z = F 0 /\ F i = F 0) \/ (z <> F 0 /\ F i = fp_div (F 1) z)).
  { destruct (fp_dec z (F 0)) as [E|E].
    - left. split; [exact E|]. apply (fv_0 _ _ Hd) in E. apply Z.eqb_eq in E.
      unfold i. rewrite E. rewrite (mod_inverse_none 0 sm2_P); [reflexivity| |reflexivity].
      rewrite <- Hcp. exact Hp.
    - right. split; [exact E|]. unfold i.
      assert (Hm : sm2_to_big d mod sm2_P <> 0).
      { intros E0. apply E. rewrite <- Hcp in E0. apply fp_of_0 in E0. destruct Hd as [_ <-]. exact E0. }
      destruct (mod_inverse_prime (sm2_to_big d) sm2_P) as [j Ej]; [rewrite <- Hcp; exact Hp|exact Hm|].
      rewrite Ej. apply mod_inverse_some in Ej as [_ Ej]; [|reflexivity].
      assert (Em : fp_mul (F j) z = F 1).
      { destruct Hd as [_ <-]. rewrite <- fp_of_mul. apply fp_of_eq. rewrite Hcp.
        rewrite (Z.mul_comm j). exact Ej. }
      rewrite <- Em. field. exact E. }
  match goal with H1 : fv ?u (fp_mul x _), H2 : fv ?v (fp_mul y _) |- (sm2_to_big ?u, sm2_to_big ?v) = _ =>
    rewrite (fv_val _ _ H1), (fv_val _ _ H2) end.
  rewrite <- HP. destruct Ei as [[Ez Ei]|[Ez Ei]]; rewrite Ei.
  - subst z. rewrite jac_0. cbn [px py].
    f_equal.
    + replace (fp_mul x _) with (F 0) by ring. rewrite fval_of. apply Zmod_0_l.
    + replace (fp_mul y _) with (F 0) by ring. rewrite fval_of. apply Zmod_0_l.
  - rewrite (jac_ne _ _ _ _ fp_dec _ _ _ Ez). cbn [px py]. f_equal; f_equal; field; auto.
Qed.
End WithCurve.
