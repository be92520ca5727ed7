(** The secp256k1 arithmetic of ModelK1.v refines the group law of the curve
    y^2 = x^3 + b over the same field (b = 7 for secp256k1 itself; other b for
    points that are not on secp256k1). *)
Require Import ZArith List Lia Znumtheory Ring Field Bool.
Require Import Verif.Base Verif.Fp Verif.Weier Verif.Jac Verif.Group Verif.EC Verif.Curves
  Verif.ModelK1.
Import ListNotations.
Open Scope Z_scope.

Lemma k1_P_eq : k1_P = w_p secp256k1. Proof. reflexivity. Qed.
Lemma k1_N_eq : k1_N = w_n secp256k1. Proof. reflexivity. Qed.
Lemma k1_P_prime : prime k1_P.
Proof. rewrite k1_P_eq. exact (wv_prime _ (wv_field _ secp256k1_valid)). Qed.

Global Opaque k1_P.
Lemma k1_P_pos : 2 < k1_P. Proof. rewrite k1_P_eq. exact (wv_odd _ (wv_field _ secp256k1_valid)). Qed.

Section WithB.
Variable c : wcurve.
Hypothesis Hcp : w_p c = k1_P.
Hypothesis Hca : w_a c = 0.
Hypothesis Hf : w_field_ok c.

Let p := w_p c.
Local Notation F := (fp_of (w_p c)).

Lemma Kf1 : field_theory (F 0) (F 1) fp_add fp_mul fp_sub fp_opp fp_div fp_inv eq.
Proof. exact (fp_field _ (wv_prime c Hf)). Qed.
Add Field KFK : Kf1.

Definition jz (t : Z * Z * Z) : pt c :=
  let '(x, y, z) := t in jac _ (F 0) fp_mul fp_div fp_dec (F x) (F y) (F z).
Definition zok (t : Z * Z * Z) : Prop := let '(_, _, z) := t in 0 <= z < k1_P.

Lemma F_ne z : 0 < z < k1_P -> F z <> F 0.
Proof. intros H. rewrite fp_of_0, Hcp, Z.mod_small; lia. Qed.
Lemma F_addP z : F (z + k1_P) = F z.
Proof. rewrite fp_of_add, <- Hcp, fp_of_p. ring. Qed.
Lemma F_ifaddP z : F (if z <? 0 then z + k1_P else z mod k1_P) = F z.
Proof. destruct (z <? 0); [apply F_addP|]. rewrite <- Hcp. apply fp_of_mod. Qed.
Lemma F_ifaddP' z : F (if z <? 0 then z + k1_P else z) = F z.
Proof. destruct (z <? 0); [apply F_addP|reflexivity]. Qed.
Lemma F_modP z : F (z mod k1_P) = F z.
Proof. rewrite <- Hcp. apply fp_of_mod. Qed.
Lemma F_2 : F 2 = fp_add (F 1) (F 1).
Proof. rewrite <- fp_of_add. reflexivity. Qed.
Lemma F_3 : F 3 = fp_add (fp_add (F 1) (F 1)) (F 1).
Proof. rewrite <- !fp_of_add. reflexivity. Qed.
Lemma F_8 : F 8 = fp_mul (fp_mul (F 2) (F 2)) (F 2).
Proof. rewrite <- !fp_of_mul. reflexivity. Qed.
Lemma F_a : F (w_a c) = F 0. Proof. rewrite Hca. reflexivity. Qed.

Lemma modP z : 0 <= z mod k1_P < k1_P.
Proof. apply Z.mod_pos_bound. pose proof k1_P_pos. lia. Qed.

Lemma k1_double_spec x y z :
  jz (k1_double x y z) = w_add c (jz (x, y, z)) (jz (x, y, z)) /\ zok (k1_double x y z).
Proof.
  split; [|apply modP].
  unfold k1_double. cbv zeta. cbn [jz].
  pose proof (jac_dbl_a0 _ _ _ _ _ _ _ _ _ Kf1 fp_dec _ (w_char2 c Hf) (F x) (F y) (F z) F_a) as HD.
  cbv zeta in HD. unfold w_add. rewrite (HD _ eq_refl). clear HD.
  repeat (rewrite ?F_ifaddP, ?F_modP, ?fp_of_sub, ?fp_of_add, ?fp_of_mul).
  rewrite F_8, !F_3, !F_2. apply f_equal3; ring.
Qed.

Lemma jz_Inf x y : jz (x, y, 0) = pinf c.
Proof. cbn [jz]. apply jac_0. Qed.

Lemma w_add_inf_r P : w_add c P (pinf c) = P.
Proof. destruct P; reflexivity. Qed.
Lemma w_add_inf_l P : w_add c (pinf c) P = P.
Proof. reflexivity. Qed.

Lemma subP_0 a b : (a mod k1_P - b mod k1_P =? 0) = true <-> F a = F b.
Proof.
  rewrite Z.eqb_eq. rewrite <- fp_of_eq, Hcp. lia.
Qed.
Lemma subP_0' a b :
  ((if a mod k1_P - b mod k1_P <? 0 then a mod k1_P - b mod k1_P + k1_P
    else a mod k1_P - b mod k1_P) =? 0) = true <-> F a = F b.
Proof.
  rewrite <- subP_0. pose proof (modP a). pose proof (modP b).
  generalize dependent (a mod k1_P). generalize dependent (b mod k1_P). intros u Hu v Hv.
  destruct (v - u <? 0) eqn:E; rewrite !Z.eqb_eq; apply Z.ltb_lt in E || apply Z.ltb_ge in E; lia.
Qed.

Lemma k1_add_jac_spec x1 y1 z1 x2 y2 z2 :
  zok (x1, y1, z1) -> zok (x2, y2, z2) ->
  w_on c (jz (x1, y1, z1)) -> w_on c (jz (x2, y2, z2)) ->
  jz (k1_add_jac x1 y1 z1 x2 y2 z2) = w_add c (jz (x1, y1, z1)) (jz (x2, y2, z2)) /\
  zok (k1_add_jac x1 y1 z1 x2 y2 z2).
Proof.
  intros Hz1 Hz2 Ho1 Ho2. unfold k1_add_jac. cbv zeta.
  destruct (z1 =? 0) eqn:E1.
  { apply Z.eqb_eq in E1. subst z1. rewrite jz_Inf, w_add_inf_l. auto. }
  destruct (z2 =? 0) eqn:E2.
  { apply Z.eqb_eq in E2. subst z2. rewrite jz_Inf, w_add_inf_r. auto. }
  apply Z.eqb_neq in E1, E2. cbn [zok] in Hz1, Hz2.
  assert (N1 : F z1 <> F 0) by (apply F_ne; clear - Hz1 E1; lia).
  assert (N2 : F z2 <> F 0) by (apply F_ne; clear - Hz2 E2; lia).
  match goal with |- context [if ?a && ?b then _ else _] =>
    set (bx := a); set (by_ := b);
    assert (Hbx : bx = true <-> F (x2 * ((z1 * z1) mod k1_P)) = F (x1 * ((z2 * z2) mod k1_P)))
      by (apply subP_0);
    assert (Hby : by_ = true <-> F (y2 * z1 * ((z1 * z1) mod k1_P)) = F (y1 * z2 * ((z2 * z2) mod k1_P)))
      by (apply subP_0')
  end.
  clearbody bx by_.
  repeat (rewrite ?fp_of_mul, ?F_modP in Hbx). repeat (rewrite ?fp_of_mul, ?F_modP in Hby).
  destruct bx; [destruct by_|]; cbn [andb].
  - (* same point *)
    destruct (k1_double_spec x1 y1 z1) as [D Dz]. split; [|exact Dz]. rewrite D.
    f_equal. cbn [jz]. symmetry.
    apply (jac_eq _ _ _ _ _ _ _ _ _ Kf1); auto; [apply Hbx|apply Hby]; reflexivity.
  - (* opposite points: h = 0, z3 = 0 *)
    assert (Hx := proj1 Hbx eq_refl).
    assert (Hy : fp_mul (fp_mul (F y2) (F z1)) (fp_mul (F z1) (F z1)) <>
                 fp_mul (fp_mul (F y1) (F z2)) (fp_mul (F z2) (F z2)))
      by (intros E; apply Hby in E; discriminate).
    split; [|apply modP].
    unfold w_add. cbn [jz].
    match goal with |- _ = ?rhs => assert (R : rhs = Inf (fp (w_p c))) end.
    { apply (jac_add_opp _ _ _ _ _ _ _ _ _ Kf1 fp_dec (F (w_a c)) (F (w_b c))); auto. }
    rewrite R. clear R.
    match goal with |- jac _ _ _ _ _ _ _ (F ?z) = _ => assert (E0 : F z = F 0) end.
    { repeat (rewrite ?F_ifaddP', ?F_modP, ?fp_of_sub, ?fp_of_add, ?fp_of_mul).
      rewrite Hx. ring. }
    rewrite E0. apply jac_0.
  - assert (Hx : fp_sub (fp_mul (F x2) (fp_mul (F z1) (F z1))) (fp_mul (F x1) (fp_mul (F z2) (F z2))) <> F 0).
    { intros E. assert (false = true); [|discriminate]. apply Hbx.
      match type of E with fp_sub ?a ?b = _ => transitivity (fp_add (fp_sub a b) b); [ring|]; rewrite E; ring end. }
    split; [|apply modP].
    pose proof (jac_add_ne _ _ _ _ _ _ _ _ _ Kf1 fp_dec (F (w_a c)) (w_char2 c Hf)
       (F x1) (F y1) (F z1) (F x2) (F y2) (F z2) N1 N2) as HD.
    cbv zeta in HD. specialize (HD Hx _ eq_refl).
    unfold w_add. cbn [jz]. rewrite HD. clear HD.
    repeat (rewrite ?F_ifaddP', ?F_modP, ?fp_of_sub, ?fp_of_add, ?fp_of_mul).
    rewrite !F_2. apply f_equal3; ring.
Qed.

(** Conversion to affine coordinates; in particular ModInverse never fails. *)
Lemma k1_affine_inverse_some z : 0 < z < k1_P -> exists i, mod_inverse z k1_P = Some i.
Proof.
  intros H. apply mod_inverse_prime; [exact k1_P_prime|]. rewrite Z.mod_small; lia.
Qed.

Lemma k1_affine_spec t : zok t -> k1_affine t = (px c (jz t), py c (jz t)).
Proof.
  destruct t as [[x y] z]. cbn [zok]. intros Hz. unfold k1_affine.
  destruct (z =? 0) eqn:E.
  { apply Z.eqb_eq in E. subst z. rewrite jz_Inf. reflexivity. }
  apply Z.eqb_neq in E.
  assert (Hz' : 0 < z < k1_P) by (clear - Hz E; lia).
  destruct (k1_affine_inverse_some z Hz') as [i Hi]. rewrite Hi.
  cbn [jz]. rewrite jac_ne by (apply F_ne; exact Hz'). cbn [px py].
  rewrite <- Hcp in Hi. pose proof (fp_of_inverse _ (wv_prime c Hf) _ _ Hi) as Ei.
  rewrite <- Hcp, <- !fval_of, !fp_of_mul, !Ei.
  f_equal; f_equal; field; apply F_ne; exact Hz'.
Qed.

(** The pair (0, 0) stands for the point at infinity. *)
Definition dec2 (x y : Z) : pt c := if (x =? 0) && (y =? 0) then pinf c else paff c x y.

Lemma jz_affine x y : jz (x, y, z_for_affine x y) = dec2 x y.
Proof.
  unfold z_for_affine, dec2. destruct (x =? 0), (y =? 0); cbn [andb orb negb];
    rewrite ?jz_Inf; auto; cbn [jz]; apply (jac_1 _ _ _ _ _ _ _ _ _ Kf1).
Qed.
Lemma zok_affine x y : zok (x, y, z_for_affine x y).
Proof.
  pose proof k1_P_pos. unfold z_for_affine. cbn [zok].
  destruct (negb (x =? 0) || negb (y =? 0)); lia.
Qed.

Lemma k1_add_spec x1 y1 x2 y2 : w_on c (dec2 x1 y1) -> w_on c (dec2 x2 y2) ->
  k1_add x1 y1 x2 y2 = (px c (w_add c (dec2 x1 y1) (dec2 x2 y2)), py c (w_add c (dec2 x1 y1) (dec2 x2 y2))).
Proof.
  intros H1 H2. unfold k1_add.
  destruct (k1_add_jac_spec x1 y1 (z_for_affine x1 y1) x2 y2 (z_for_affine x2 y2)) as [E Ez];
    rewrite ?jz_affine; auto using zok_affine.
  rewrite k1_affine_spec by exact Ez. rewrite E, !jz_affine. reflexivity.
Qed.

(** The accumulator after some bits. *)
Definition acc_ok (acc : Z * Z * Z) (P : pt c) : Prop := zok acc /\ jz acc = P.

Lemma jz_base x y : jz (x, y, 1) = paff c x y.
Proof. cbn [jz]. apply (jac_1 _ _ _ _ _ _ _ _ _ Kf1). Qed.

Lemma k1_smul_bits_spec n : forall bx by_ byte acc m,
  w_on c (paff c bx by_) -> (n <= 8)%nat -> 0 <= byte < 256 ->
  byte mod 2 ^ (8 - Z.of_nat n) = 0 ->
  acc_ok acc (w_mul c m (paff c bx by_)) ->
  acc_ok (k1_smul_bits n bx by_ byte acc)
         (w_mul c (m * 2 ^ Z.of_nat n + byte / 2 ^ (8 - Z.of_nat n)) (paff c bx by_)).
Proof.
  pose proof (w_group c Hf) as HW.
  induction n as [|n IH]; intros bx by_ byte acc m Hon Hn Hb Hm Hacc.
  - cbn [k1_smul_bits]. change (2 ^ (8 - Z.of_nat 0)) with 256 in *.
    change (2 ^ Z.of_nat 0) with 1.
    rewrite Z.div_small, Z.mul_1_r, Z.add_0_r by lia. exact Hacc.
  - destruct acc as [[x y] z]. destruct Hacc as [Hz HJ]. cbn [k1_smul_bits].
    destruct (k1_double_spec x y z) as [D Dz].
    destruct (k1_double x y z) as [[x' y'] z']. rewrite HJ in D.
    set (b := if Z.land byte 128 =? 128 then 1 else 0).
    assert (Hbit : byte = 128 * b + byte mod 128 /\ (Z.land byte 128 =? 128) = (b =? 1)).
    { clear - Hb. subst b. assert (E : Z.land byte 128 = 128 * ((byte / 128) mod 2)).
      { change 128 with (2 ^ 7) at 1. 
        rewrite <- Z.shiftr_div_pow2 with (n := 7) by lia.
        change 2 with (2 ^ 1). rewrite <- Z.land_ones by lia.
        change 128 with (2 ^ 7). rewrite Z.mul_comm, <- Z.shiftl_mul_pow2 by lia.
        apply Z.bits_inj'. intros i Hi. rewrite Z.land_spec.
        destruct (Z.ltb_spec i 7) as [L|L].
        - rewrite Z.shiftl_spec_low by lia. rewrite Z.pow2_bits_false by lia. apply andb_false_r.
        - rewrite Z.shiftl_spec_high by lia. rewrite Z.land_spec, Z.shiftr_spec by lia.
          replace (i - 7 + 7) with i by lia. f_equal.
          destruct (Z.eq_dec i 7) as [->|Hne]; [reflexivity|].
          rewrite Z.pow2_bits_false by lia. rewrite Z.ones_spec_high by lia. reflexivity. }
      rewrite E. destruct (128 * ((byte / 128) mod 2) =? 128) eqn:E2;
        [apply Z.eqb_eq in E2|apply Z.eqb_neq in E2]; split; auto; lia. }
    destruct Hbit as [Hbyte Hbt]. rewrite Hbt. clear Hbt.
    assert (Hb01 : b = 0 \/ b = 1) by (subst b; destruct (Z.land byte 128 =? 128); auto).
    clearbody b.
    assert (Hacc' : acc_ok (if b =? 1 then k1_add_jac bx by_ 1 x' y' z' else (x', y', z'))
                           (w_mul c (2 * m + b) (paff c bx by_))).
    { destruct Hb01 as [-> | ->]; cbn [Z.eqb Pos.eqb].
      - split; [exact Dz|]. rewrite D. unfold w_mul.
        rewrite Z.add_0_r, (zmul_double _ _ _ _ _ HW) by exact Hon. reflexivity.
      - assert (O : w_on c (jz (x', y', z'))).
        { rewrite D. apply (g_add _ _ _ _ _ HW); apply (zmul_ok _ _ _ _ _ HW); exact Hon. }
        assert (Z1 : zok (bx, by_, 1)) by (cbn [zok]; pose proof k1_P_pos; lia).
        assert (O1 : w_on c (jz (bx, by_, 1))) by (rewrite jz_base; exact Hon).
        destruct (k1_add_jac_spec bx by_ 1 x' y' z' Z1 Dz O1 O) as [A Az].
        split; [exact Az|]. rewrite A, D, jz_base. unfold w_mul.
        rewrite (zmul_succ _ _ _ _ _ HW), (zmul_double _ _ _ _ _ HW) by exact Hon. reflexivity. }
    assert (Epow : 2 ^ (8 - Z.of_nat n) = 2 * 2 ^ (8 - Z.of_nat (S n))).
    { replace (8 - Z.of_nat n) with (Z.succ (8 - Z.of_nat (S n))) by lia. apply Z.pow_succ_r. lia. }
    assert (Epow2 : 2 ^ Z.of_nat (S n) = 2 * 2 ^ Z.of_nat n).
    { rewrite Nat2Z.inj_succ. apply Z.pow_succ_r. lia. }
    assert (E128 : 2 ^ (8 - Z.of_nat (S n)) * 2 ^ Z.of_nat n = 128).
    { rewrite <- Z.pow_add_r by lia. replace (8 - Z.of_nat (S n) + Z.of_nat n) with 7 by lia. reflexivity. }
    set (q := 2 ^ (8 - Z.of_nat (S n))) in *.
    assert (Hq : 0 < q) by (apply Z.pow_pos_nonneg; lia).
    set (w := 2 ^ Z.of_nat n) in *.
    assert (E2b : (2 * byte) mod 256 = 2 * (byte mod 128)).
    { change 256 with (2 * 128). rewrite Z.mul_mod_distr_l by lia. reflexivity. }
    assert (Hqm : (byte mod 128) mod q = 0).
    { rewrite <- Znumtheory.Zmod_div_mod; auto; [lia|]. exists w. rewrite <- E128. ring. }
    specialize (IH bx by_ ((2 * byte) mod 256)
                  (if b =? 1 then k1_add_jac bx by_ 1 x' y' z' else (x', y', z')) (2 * m + b) Hon).
    rewrite Epow2.
    replace (m * (2 * w) + byte / q) with
      ((2 * m + b) * w + (2 * byte) mod 256 / (2 * q)).
    + rewrite Epow in IH. apply IH; [lia| apply Z.mod_pos_bound; lia | | exact Hacc'].
      rewrite E2b, Z.mul_mod_distr_l by lia. rewrite Hqm. reflexivity.
    + rewrite E2b, Z.div_mul_cancel_l by lia.
      rewrite Hbyte at 2. rewrite <- E128 at 2.
      replace (q * w * b + byte mod 128) with (byte mod 128 + b * w * q) by ring.
      rewrite Z.div_add by lia. ring.
Qed.

Lemma k1_smul_byte_spec bx by_ byte acc m :
  w_on c (paff c bx by_) -> byte_ok byte ->
  acc_ok acc (w_mul c m (paff c bx by_)) ->
  acc_ok (k1_smul_bits 8 bx by_ byte acc) (w_mul c (256 * m + byte) (paff c bx by_)).
Proof.
  intros Hon Hb Hacc.
  pose proof (k1_smul_bits_spec 8 bx by_ byte acc m Hon (le_n 8) Hb) as H.
  change (2 ^ (8 - Z.of_nat 8)) with 1 in H. change (2 ^ Z.of_nat 8) with 256 in H.
  rewrite Z.mod_1_r, Z.div_1_r in H. specialize (H eq_refl Hacc).
  replace (256 * m + byte) with (m * 256 + byte) by ring. exact H.
Qed.

Theorem k1_scalar_mult_spec bx by_ k :
  w_on c (paff c bx by_) -> bytes_ok k ->
  k1_scalar_mult bx by_ k =
    (px c (w_mul c (be2z k) (paff c bx by_)), py c (w_mul c (be2z k) (paff c bx by_))).
Proof.
  intros Hon Hk. unfold k1_scalar_mult.
  assert (H : acc_ok (fold_left (fun acc byte => k1_smul_bits 8 bx by_ byte acc) k (0, 0, 0))
                     (w_mul c (be2z k) (paff c bx by_))).
  { induction k as [|b k IH] using rev_ind.
    - cbn [fold_left]. split; [cbn [zok]; pose proof k1_P_pos; lia|]. rewrite jz_Inf. reflexivity.
    - apply Forall_app in Hk. destruct Hk as [Hk Hb]. inversion Hb; subst.
      rewrite fold_left_app. cbn [fold_left]. rewrite be2z_snoc.
      apply k1_smul_byte_spec; auto. }
  destruct H as [Hz HJ]. rewrite k1_affine_spec by exact Hz. rewrite HJ. reflexivity.
Qed.

End WithB.

(** Scalar multiples of the pair (0, 0), which stands for infinity. *)
Lemma k1_smul_bits_00 n : forall byte x y z, zok (x, y, z) -> 
  (z = 0 \/ (x = 0 /\ y = 0 /\ z = 1)) ->
  exists x' y' z', k1_smul_bits n 0 0 byte (x, y, z) = (x', y', z') /\
    (z' = 0 \/ (x' = 0 /\ y' = 0 /\ z' = 1)).
Proof.
  pose proof k1_P_pos as HP.
  induction n as [|n IH]; intros byte x y z Hz H; cbn [k1_smul_bits].
  - eauto 6.
  - assert (D : exists x' y', k1_double x y z = (x', y', 0)).
    { unfold k1_double. eexists _, _. f_equal.
      destruct H as [-> | (-> & -> & ->)]; rewrite ?Z.mul_0_r, ?Z.mul_0_l, ?Z.mul_0_r; apply Zmod_0_l. }
    destruct D as (x' & y' & ->).
    destruct (Z.land byte 128 =? 128).
    + cbn [k1_add_jac Z.eqb]. apply IH; [cbn [zok]; lia|]. auto.
    + apply IH; [cbn [zok]; lia|]. auto.
Qed.

Lemma k1_scalar_mult_00 k : k1_scalar_mult 0 0 k = (0, 0).
Proof.
  unfold k1_scalar_mult. pose proof k1_P_pos as HP.
  assert (H : forall x y z, zok (x, y, z) -> (z = 0 \/ (x = 0 /\ y = 0 /\ z = 1)) ->
    exists x' y' z', fold_left (fun acc byte => k1_smul_bits 8 0 0 byte acc) k (x, y, z) = (x', y', z') /\
    (z' = 0 \/ (x' = 0 /\ y' = 0 /\ z' = 1))).
  { induction k as [|b k IH]; intros x y z Hz H.
    - cbn [fold_left]. eauto 6.
    - cbn [fold_left]. destruct (k1_smul_bits_00 8 b x y z Hz H) as (x' & y' & z' & -> & H').
      apply IH; auto. cbn [zok]. lia. }
  destruct (H 0 0 0) as (x & y & z & -> & H'); [cbn [zok]; lia|auto|].
  destruct H' as [-> | (-> & -> & ->)]; [reflexivity|].
  unfold k1_affine. cbn [Z.eqb]. destruct (mod_inverse 1 k1_P); [|reflexivity].
  rewrite !Z.mul_0_l, Zmod_0_l. reflexivity.
Qed.
