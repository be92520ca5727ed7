(** Package pasta, continued: powers, inverses, square roots, affine points and encodings. *)
Require Import ZArith List Bool Lia Znumtheory Ring Field.
Require Import Verif.Base Verif.Fp Verif.Weier Verif.Jac Verif.Group Verif.EC Verif.Curves Verif.SpecECDSA.
Require Import Verif.ModelPastaCode Verif.ProofPastaF Verif.ModelPasta Verif.ProofPastaG.
Import ListNotations.
Open Scope Z_scope.
Add Field KFp : Kfp.
Local Notation F := (fp_of pp).

(** ** Powers *)
Definition fpow (x : fp pp) (n : Z) : fp pp := F (fval x ^ n).
Lemma fpow_0 x : fpow x 0 = F 1. Proof. reflexivity. Qed.
Lemma fpow_1 x : fpow x 1 = x. Proof. unfold fpow. rewrite Z.pow_1_r. apply fp_of_val. Qed.
Lemma fpow_add x m n : 0 <= m -> 0 <= n -> fpow x (m + n) = fp_mul (fpow x m) (fpow x n).
Proof. intros Hm Hn. unfold fpow. rewrite Z.pow_add_r, fp_of_mul by assumption. reflexivity. Qed.
Lemma fpow_pow x m n : 0 <= m -> 0 <= n -> fpow (fpow x m) n = fpow x (m * n).
Proof.
  intros Hm Hn. unfold fpow. apply fp_of_eq. rewrite fval_of.
  rewrite pow_mod_mod by (try exact Hn; reflexivity). rewrite <- Z.pow_mul_r by assumption. reflexivity.
Qed.
Lemma fpow_base_mul x y n : 0 <= n -> fpow (fp_mul x y) n = fp_mul (fpow x n) (fpow y n).
Proof.
  intros Hn. unfold fpow. rewrite <- fp_of_mul, <- Z.pow_mul_l. apply fp_of_eq. unfold fp_mul. rewrite fval_of.
  apply pow_mod_mod; [reflexivity | exact Hn].
Qed.
Lemma fpow_2 x : fpow x 2 = fp_mul x x.
Proof. change 2 with (1 + 1). rewrite fpow_add by lia. rewrite fpow_1. reflexivity. Qed.
Lemma fpow_fermat x : x <> F 0 -> fpow x (pp - 1) = F 1.
Proof.
  intros Hx. unfold fpow. apply fp_of_eq. rewrite (fermat pp pp_prime); [reflexivity|].
  intros E. apply Hx. rewrite <- (fp_of_val _ x). apply fp_of_0. exact E.
Qed.
Lemma fpow_1l n : 0 <= n -> fpow (F 1) n = F 1.
Proof. intros Hn. unfold fpow. rewrite fval_of. change (1 mod pp) with 1. rewrite Z.pow_1_l by exact Hn. reflexivity. Qed.

Definition bval (bits : list bool) : Z := fold_left (fun (v : Z) (b : bool) => 2 * v + Z.b2z b) bits 0.
Lemma rep_set_one : rep fp_set_one (F 1). Proof. split; [exact one_okp | exact fe_one]. Qed.
Lemma FpPow_ok a u bits : rep a u -> rep (FpPow a bits) (fpow u (bval bits)).
Proof.
  intros Ha. unfold FpPow, bval.
  assert (G : forall bits out v, 0 <= v -> rep out (fpow u v) ->
    let v' := fold_left (fun (v : Z) (b : bool) => 2 * v + Z.b2z b) bits v in
    rep (fold_left (fun (out : limbs) (b : bool) => let out := FpSquare out in if b then FpMul out a else out) bits out) (fpow u v')).
  { clear bits. induction bits as [|b bits IH]; intros out v Hv Ho; cbv zeta; cbn [fold_left]; [exact Ho|].
    apply IH; [destruct b; cbn [Z.b2z]; lia|]. cbv zeta.
    assert (Hs : rep (FpSquare out) (fpow u (2 * v))).
    { eapply rep_eq; [apply rep_square; exact Ho|]. replace (2 * v) with (v + v) by ring. symmetry. apply fpow_add; exact Hv. }
    destruct b; cbn [Z.b2z]; [|rewrite Z.add_0_r; exact Hs].
    eapply rep_eq; [apply rep_mul; [exact Hs | exact Ha]|]. rewrite fpow_add by lia. rewrite fpow_1. reflexivity. }
  apply (G bits fp_set_one 0); [lia|]. rewrite fpow_0. exact rep_set_one.
Qed.
Lemma bval_pminus2 : bval pminus2 = pp - 2. Proof. vm_cast_no_check (@eq_refl Z (pp - 2)). Qed.
Lemma bval_pminus1over2 : bval pminus1over2 = (pp - 1) / 2. Proof. vm_cast_no_check (@eq_refl Z ((pp - 1) / 2)). Qed.
(** p - 1 = 2^32 * tt with tt odd *)
Definition tt : Z := (pp - 1) / 2 ^ 32.
Lemma bval_tminus1over2 : 2 * bval tminus1over2 + 1 = tt. Proof. vm_cast_no_check (@eq_refl Z tt). Qed.
Lemma bval_nonneg bits : 0 <= bval bits.
Proof.
  unfold bval. assert (G : forall v, 0 <= v -> 0 <= fold_left (fun (v : Z) (b : bool) => 2 * v + Z.b2z b) bits v).
  { induction bits as [|b bits IH]; intros v Hv; cbn [fold_left]; [exact Hv|]. apply IH. destruct b; cbn [Z.b2z]; lia. }
  apply G. lia.
Qed.
Lemma pp_tt : pp - 1 = 2 ^ 32 * tt. Proof. reflexivity. Qed.
Lemma pp_half_tt : (pp - 1) / 2 = tt * 2 ^ 31. Proof. reflexivity. Qed.
Lemma tt_pos : 0 < tt. Proof. reflexivity. Qed.

Lemma FpInv_ok a u : rep a u -> u <> F 0 -> rep (FpInv a) (fp_inv u).
Proof.
  intros Ha Hu. eapply rep_eq; [apply FpPow_ok; exact Ha|]. rewrite bval_pminus2.
  pose proof (fpow_fermat u Hu) as E.
  assert (E2 : fp_mul (fpow u (pp - 2)) u = F 1).
  { rewrite <- E. rewrite <- (fpow_1 u) at 2. rewrite <- fpow_add by (discriminate || (clear; lia)). f_equal. }
  transitivity (fp_mul (fp_mul (fpow u (pp - 2)) u) (fp_inv u)); [field; exact Hu|]. rewrite E2. field. exact Hu.
Qed.
Global Opaque FpPow FpInv.

(** ** Square roots *)
Lemma integral (a b : fp pp) : fp_mul a b = F 0 -> a = F 0 \/ b = F 0.
Proof. apply (k_integral _ _ _ _ _ _ _ _ _ Kfp fp_dec). Qed.
Lemma sqrt1 (a : fp pp) : fp_mul a a = F 1 -> a = F 1 \/ a = fp_opp (F 1).
Proof.
  intros E. destruct (integral (fp_sub a (F 1)) (fp_add a (F 1))) as [H|H].
  - transitivity (fp_sub (fp_mul a a) (F 1)); [ring|]. rewrite E. ring.
  - left. apply sub_0_iff. exact H.
  - right. apply sub_0_iff. rewrite <- H. ring.
Qed.
Lemma one_ne_m1 : F 1 <> fp_opp (F 1).
Proof. intros E. apply (f_equal fval) in E. discriminate E. Qed.
Lemma sq_eq (a b : fp pp) : fp_mul a a = fp_mul b b -> a = b \/ a = fp_opp b.
Proof.
  intros E. destruct (integral (fp_sub a b) (fp_add a b)) as [H|H].
  - transitivity (fp_sub (fp_mul a a) (fp_mul b b)); [ring|]. rewrite E. ring.
  - left. apply sub_0_iff. exact H.
  - right. apply sub_0_iff. rewrite <- H. ring.
Qed.

Lemma fpow_dbl x n : fpow x (2 ^ Z.of_nat (S n)) = fpow (fp_mul x x) (2 ^ Z.of_nat n).
Proof.
  rewrite <- fpow_2, fpow_pow by (try apply Z.pow_nonneg; lia). f_equal. rewrite Nat2Z.inj_succ, Z.pow_succ_r by lia. reflexivity.
Qed.
Lemma square_n_ok n : forall w u, rep w u -> rep (square_n n w) (fpow u (2 ^ Z.of_nat n)).
Proof.
  induction n as [|n IH]; intros w u H; cbn [square_n].
  - change (2 ^ Z.of_nat 0) with 1. rewrite fpow_1. exact H.
  - rewrite fpow_dbl. apply IH. apply rep_square. exact H.
Qed.
Lemma order2_ok fuel : forall b u n m, rep b u -> fpow u (2 ^ Z.of_nat n) = F 1 -> (n <= fuel)%nat ->
  exists j, order2 fuel b m = Some (m + j)%nat /\ (j <= n)%nat /\ fpow u (2 ^ Z.of_nat j) = F 1 /\
            (forall i, (i < j)%nat -> fpow u (2 ^ Z.of_nat i) <> F 1).
Proof.
  induction fuel as [|fuel IH]; intros b u n m Hb Hn Hf; cbn [order2].
  - destruct n; [|lia]. change (2 ^ Z.of_nat 0) with 1 in Hn. rewrite fpow_1 in Hn.
    rewrite (proj2 (FpEqualsOne_iff b (proj1 Hb))) by (rewrite (proj2 Hb); exact Hn).
    exists 0%nat. rewrite Nat.add_0_r. repeat split; [lia | change (2 ^ Z.of_nat 0) with 1; rewrite fpow_1; exact Hn | lia].
  - destruct (FpEqualsOne b) eqn:E.
    + apply FpEqualsOne_iff in E; [|apply Hb]. rewrite (proj2 Hb) in E.
      exists 0%nat. rewrite Nat.add_0_r. repeat split; [lia | change (2 ^ Z.of_nat 0) with 1; rewrite fpow_1; exact E | lia].
    + assert (N1 : u <> F 1) by (intros E1; rewrite (proj2 (FpEqualsOne_iff b (proj1 Hb))) in E by (rewrite (proj2 Hb); exact E1); discriminate).
      destruct n as [|n]; [change (2 ^ Z.of_nat 0) with 1 in Hn; rewrite fpow_1 in Hn; contradiction|].
      rewrite fpow_dbl in Hn.
      destruct (IH (FpSquare b) (fp_mul u u) n (S m) (rep_square _ _ Hb) Hn ltac:(lia)) as (j & J1 & J2 & J3 & J4).
      exists (S j). rewrite J1. split; [f_equal; lia|]. split; [lia|]. rewrite fpow_dbl. split; [exact J3|].
      intros [|i] Hi.
      * change (2 ^ Z.of_nat 0) with 1. rewrite fpow_1. exact N1.
      * rewrite fpow_dbl. apply J4. lia.
Qed.

Lemma tonelli_ok a fuel : forall v z x b ζ ξ β, rep z ζ -> rep x ξ -> rep b β ->
  (v <= fuel)%nat -> (v <= 64)%nat -> (1 <= v)%nat ->
  fpow ζ (2 ^ Z.of_nat (v - 1)) = fp_opp (F 1) -> fpow β (2 ^ Z.of_nat (v - 1)) = F 1 ->
  fp_mul ξ ξ = fp_mul a β ->
  exists r ρ, tonelli fuel v z x b = Some r /\ rep r ρ /\ fp_mul ρ ρ = a.
Proof.
  induction fuel as [|fuel IH]; intros v z x b ζ ξ β Hz Hx Hb Hf H64 H1 Ez Eb Ex; [lia|]. cbn [tonelli].
  destruct (FpEqualsOne b) eqn:E.
  { apply FpEqualsOne_iff in E; [|apply Hb]. rewrite (proj2 Hb) in E. subst β.
    exists x, ξ. repeat split; try apply Hx. rewrite Ex. ring. }
  assert (N1 : β <> F 1) by (intros E1; rewrite (proj2 (FpEqualsOne_iff b (proj1 Hb))) in E by (rewrite (proj2 Hb); exact E1); discriminate).
  destruct (order2_ok 64 b β (v - 1) 0 Hb Eb ltac:(lia)) as (m & J1 & J2 & J3 & J4). rewrite J1. cbn [Nat.add].
  destruct m as [|m']. { exfalso. change (2 ^ Z.of_nat 0) with 1 in J3. rewrite fpow_1 in J3. contradiction. }
  cbv zeta. set (w := square_n (v - S m' - 1) z). set (ω := fpow ζ (2 ^ Z.of_nat (v - S m' - 1))).
  assert (Hw : rep w ω) by (apply square_n_ok; exact Hz).
  assert (Ew : fpow ω (2 ^ Z.of_nat (S m')) = fp_opp (F 1)).
  { unfold ω. rewrite fpow_pow, <- Z.pow_add_r by (try apply Z.pow_nonneg; lia). rewrite <- Ez. f_equal. f_equal. lia. }
  assert (Eb' : fpow β (2 ^ Z.of_nat m') = fp_opp (F 1)).
  { destruct (sqrt1 (fpow β (2 ^ Z.of_nat m'))) as [K|K]; [|exfalso; exact (J4 m' ltac:(lia) K)|exact K].
    rewrite <- fpow_2, fpow_pow by (try apply Z.pow_nonneg; lia). rewrite <- J3. f_equal.
    rewrite Nat2Z.inj_succ, Z.pow_succ_r by lia. ring. }
  rewrite fpow_dbl in Ew.
  apply (IH (S m') (FpSquare w) (FpMul x w) (FpMul b (FpSquare w)) (fp_mul ω ω) (fp_mul ξ ω) (fp_mul β (fp_mul ω ω)));
    try lia; replace (S m' - 1)%nat with m' by lia.
  - apply rep_square; exact Hw.
  - apply rep_mul; assumption.
  - apply rep_mul; [assumption | apply rep_square; exact Hw].
  - exact Ew.
  - rewrite fpow_base_mul, Ew, Eb' by (apply Z.pow_nonneg; lia). ring.
  - transitivity (fp_mul (fp_mul ξ ξ) (fp_mul ω ω)); [ring|]. rewrite Ex. ring.
Qed.

(** the 2^32-th root of unity *)
Fixpoint sq_iter (n : nat) (x m : Z) : Z := match n with O => x | S n => sq_iter n ((x * x) mod m) m end.
Lemma sq_iter_ok n : forall x, fpow (F x) (2 ^ Z.of_nat n) = F (sq_iter n x pp).
Proof.
  induction n as [|n IH]; intros x; cbn [sq_iter].
  - apply fpow_1.
  - rewrite fpow_dbl, <- fp_of_mul, <- IH. rewrite fp_of_mod. reflexivity.
Qed.
Lemma sqrt_z_okp : okp sqrt_z. Proof. limbs_lit. Qed.
Lemma sqrt_z_root : fpow (fe sqrt_z) (2 ^ Z.of_nat 31) = fp_opp (F 1).
Proof.
  Transparent fe. unfold fe. Opaque fe. rewrite sq_iter_ok. apply fp_of_eq.
  vm_cast_no_check (@eq_refl Z (pp - 1)).
Qed.

Theorem FpSqrt_ok a u : rep a u ->
  (exists x ξ, FpSqrt a = Some (Some x) /\ rep x ξ /\ fp_mul ξ ξ = u) \/
  (FpSqrt a = Some None /\ forall y, fp_mul y y <> u).
Proof.
  intros Ha. unfold FpSqrt. destruct (FpEqualsZero a) eqn:E0.
  { apply FpEqualsZero_iff in E0; [|apply Ha]. rewrite (proj2 Ha) in E0. subst u.
    left. exists zero4, (F 0). split; [reflexivity | split; [exact rep_zero | ring]]. }
  assert (N0 : u <> F 0) by (intros E1; rewrite (proj2 (FpEqualsZero_iff a (proj1 Ha))) in E0 by (rewrite (proj2 Ha); exact E1); discriminate).
  pose proof (FpPow_ok a u pminus1over2 Ha) as He. rewrite bval_pminus1over2 in He.
  destruct (FpEqualsOne (FpPow a pminus1over2)) eqn:E1; cbn [negb].
  - left. apply FpEqualsOne_iff in E1; [|apply He]. rewrite (proj2 He) in E1. cbv zeta.
    pose proof (FpPow_ok a u tminus1over2 Ha) as Hw.
    set (n := bval tminus1over2) in *. assert (Hn : 0 <= n) by apply bval_nonneg.
    assert (En : 2 * n + 1 = tt) by exact bval_tminus1over2. clearbody n.
    pose proof (rep_mul _ _ _ _ Ha Hw) as Hx. pose proof (rep_mul _ _ _ _ Hx Hw) as Hb.
    assert (Eb : fp_mul (fp_mul u (fpow u n)) (fpow u n) = fpow u tt).
    { rewrite <- En. replace (2 * n + 1) with (1 + n + n) by ring. rewrite !fpow_add by lia. rewrite fpow_1. reflexivity. }
    destruct (tonelli_ok u 64 32 sqrt_z _ _ (fe sqrt_z) _ _ (rep_self _ sqrt_z_okp) Hx Hb ltac:(lia) ltac:(lia) ltac:(lia) sqrt_z_root)
      as (r & ρ & T1 & T2 & T3).
    + rewrite Eb. rewrite fpow_pow by ((apply Z.lt_le_incl; exact tt_pos) || (apply Z.pow_nonneg; lia)).
      change (2 ^ Z.of_nat (32 - 1)) with (2 ^ 31). rewrite <- pp_half_tt. exact E1.
    + ring.
    + exists r, ρ. rewrite T1. auto.
  - right. split; [reflexivity|]. intros y Ey.
    assert (Ny : y <> F 0) by (intros ->; apply N0; rewrite <- Ey; ring).
    assert (fpow u ((pp - 1) / 2) = F 1).
    { rewrite <- Ey, <- fpow_2, fpow_pow by (discriminate || (clear; lia)).
      change (2 * ((pp - 1) / 2)) with (pp - 1). apply fpow_fermat. exact Ny. }
    rewrite (proj2 (FpEqualsOne_iff _ (proj1 He))) in E1 by (rewrite (proj2 He); assumption). discriminate.
Qed.
Global Opaque FpSqrt.
