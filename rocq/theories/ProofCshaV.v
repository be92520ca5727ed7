(** Verify in curve25519_sha256.go: the sums X(P+G), X(P-G) and the chain that
    computes vP + hG from x coordinates. *)
Require Import ZArith List Lia Bool Znumtheory Field.
Require Import Verif.Base Verif.Words Verif.Fp Verif.Group Verif.Mont63 Verif.Primes Verif.Edw Verif.SpecEd Verif.SpecCsha Verif.EdCurve Verif.ModelSlp Verif.ModelEd Verif.ProofSlp Verif.ProofEdF Verif.ProofEdG Verif.ProofEdC Verif.ProofEdX Verif.ProofEdN.
Require Import Verif.ModelCshaCode Verif.ModelCsha Verif.ProofCshaF Verif.ProofCshaG Verif.ProofCshaW Verif.ProofCshaB Verif.ProofCshaS Verif.ProofCshaX.
Import ListNotations.
Open Scope Z_scope.

Lemma Kf25v : field_theory (fz 0) (fz 1) fp_add fp_mul fp_sub fp_opp fp_div fp_inv (@eq F25).
Proof. exact Kf25. Qed.
Add Field KF25v : Kf25v.

(** ** Square roots *)
Lemma two_euler : (2 ^ ((p25 - 1) / 2)) mod p25 = p25 - 1.
Proof.
  apply (c_powmod_spec ctx_p25519 ctx_p25519_ok 2 (Z.to_pos ((p25 - 1) / 2))).
  vm_cast_no_check (@eq_refl (option Z) (Some (p25 - 1))).
Qed.
Lemma two_pw : pw two ((p25 - 1) / 2) = (- fz 1)%F.
Proof.
  rewrite <- fp_of_add, <- fp_of_opp. unfold pw. change (fval (fz (1 + 1))) with 2. apply fp_of_eq. rewrite two_euler. vm_compute. reflexivity.
Qed.
Lemma e_nonneg : 0 <= (p25 - 5) / 8 /\ 0 <= (p25 - 1) / 2 /\ (p25 - 5) / 8 + (p25 - 5) / 8 + 1 + ((p25 - 5) / 8 + (p25 - 5) / 8 + 1) = (p25 - 1) / 2 /\ (p25 - 1) / 2 + (p25 - 1) / 2 = p25 - 1.
Proof. vm_compute. repeat split; discriminate. Qed.
Lemma sqrt_alg (u v i : F25) : u <> fz 0 -> ((u + u) * (v * v) = i)%F -> (i * i = - fz 1)%F ->
  (u * (v * (i + - fz 1)) * (u * (v * (i + - fz 1))) = u)%F.
Proof.
  intros N E1 E2.
  assert (N2 : (u + u)%F <> fz 0). { replace (u + u)%F with (two * u)%F by ring. apply fp25_mul_ne; [exact two_ne0|exact N]. }
  assert (K : ((u + u) * (u * (v * (i + - fz 1)) * (u * (v * (i + - fz 1)))) = (u + u) * u)%F).
  { transitivity (u * u * ((u + u) * (v * v)) * (i * i - i - i + fz 1))%F; [ring|]. rewrite E1, E2.
    transitivity (- (u * u * (i * i + i * i)))%F; [ring|]. rewrite E2. ring. }
  assert (Z : ((u + u) * (u * (v * (i + - fz 1)) * (u * (v * (i + - fz 1))) - u) = fz 0)%F).
  { transitivity ((u + u) * (u * (v * (i + - fz 1)) * (u * (v * (i + - fz 1)))) - (u + u) * u)%F; [ring|]. rewrite K. ring. }
  apply fint in Z. destruct Z as [Z|Z]; [contradiction|]. now apply sub0.
Qed.
Lemma cr_sqrt f w : cr f (w * w)%F -> w <> fz 0 -> exists r, cr (cs_sqrt f) r /\ (r = w \/ r = (- w)%F).
Proof.
  intros H N. set (u := (w * w)%F) in *. assert (Nu : u <> fz 0) by (apply fp25_mul_ne; exact N).
  unfold cs_sqrt. cbv zeta. pose proof (cr_add _ _ _ _ H H) as T1. pose proof (cr_recip1 _ _ (cr2_cw _ _ T1)) as V.
  set (e := (p25 - 5) / 8) in *. set (v := pw (u + u)%F e) in *.
  pose proof (cr_sqr _ _ (cr_cw _ _ V)) as X. pose proof (cr_mul _ _ _ _ (cr2_cw _ _ T1) (cr_cw _ _ X)) as T2.
  pose proof (cr_add0 _ _ (-1) T2 ltac:(lia)) as T3. pose proof (cr_mul _ _ _ _ (cr_cw _ _ V) (cr2_cw _ _ T3)) as T4.
  pose proof (cr_mul _ _ _ _ (cr_cw _ _ H) (cr_cw _ _ T4)) as T5.
  assert (M1 : fz (-1) = (- fz 1)%F) by (rewrite <- fp_of_opp; reflexivity). rewrite M1 in T5.
  set (i := ((u + u) * (v * v))%F) in *. exists (u * (v * (i + - fz 1)))%F. split; [exact T5|].
  assert (I2 : (i * i = - fz 1)%F).
  { destruct e_nonneg as (A & B & C & D). fold e in A, C.
    assert (EI : i = pw (u + u)%F (e + e + 1)).
    { unfold i, v. rewrite <- (pw_1 (u + u)%F) at 1. rewrite pw_add by assumption. rewrite pw_add by lia. apply f_equal. apply Z.add_comm. }
    rewrite EI, pw_add by lia. rewrite C. replace (u + u)%F with (two * u)%F by ring. rewrite pw_mul by exact B. rewrite two_pw.
    unfold u. rewrite pw_mul by exact B. rewrite pw_add by exact B. rewrite D, (pw_fermat w N). ring. }
  apply same_square. exact (sqrt_alg u v i Nu eq_refl I2).
Qed.

(** ** The sums *)
Lemma chord_N P : ed_on P -> fst P <> fz 0 -> snd P <> fz 1 -> snd P <> snd ed_B ->
  let u := mont_u (snd P) in
  ((mont_u (snd (ed_add P (ed_neg ed_B))) + u + fz (9 + 486662)) * ((u + fz (-9)) * (u + fz (-9))) = (mw P + fz wBz) * (mw P + fz wBz))%F.
Proof.
  intros H X Y N. cbv zeta. pose proof (g_neg _ _ _ _ _ ed_group _ ed_B_on) as HB. pose proof (mw_neg ed_B) as WB. rewrite w_B in WB.
  assert (XB : fst (ed_neg ed_B) <> fz 0).
  { intros Z. apply xB_ne. pose proof xB_ne as Q. destruct ed_B as [x y]. cbn [fst] in *. change (fst (ed_neg (x, y))) with (- x)%F in Z. transitivity (- (- x))%F; [ring|]. rewrite Z. ring. }
  assert (EY : snd (ed_neg ed_B) = snd ed_B) by (destruct ed_B; reflexivity).
  pose proof B_ne1 as YB. pose proof u_B as UB. rewrite <- EY in YB, UB, N.
  set (Bp := ed_neg ed_B) in *. clearbody Bp. destruct P as [x1 y1], Bp as [x2 y2]. cbn [fst snd] in *.
  pose proof (mw_add _ _ _ _ H HB X XB Y YB N) as K. cbv zeta in K. rewrite UB, WB in K.
  rewrite cA_9. assert (E2 : fz (-9) = (- fz 9)%F) by (rewrite <- fp_of_opp; reflexivity). rewrite E2.
  transitivity ((mw (x1, y1) - - fz wBz) * (mw (x1, y1) - - fz wBz))%F; [|ring]. rewrite <- K. ring.
Qed.
Lemma chord_solve (u3 u c k d : F25) : d <> fz 0 -> ((u3 + u + c) * d = k)%F -> (k * fp_inv d - u + - c = u3)%F.
Proof. intros N <-. field. exact N. Qed.
Lemma even_odd (w : F25) : w <> fz 0 -> Z.even (fval w) = true -> forall r, r = w \/ r = (- w)%F -> (fval r mod 2 =? 0) = true <-> r = w.
Proof.
  intros N E r [->| ->].
  - split; [reflexivity|]. intros _. rewrite Zeven_mod in E. apply Zeq_is_eq_bool in E. now rewrite E.
  - rewrite odd_opp by exact N. rewrite E. split; [discriminate|]. intros Z. exfalso. apply N.
    assert (W2 : (two * w = fz 0)%F) by (transitivity (w - - w)%F; [ring|rewrite Z; ring]). apply fint in W2. destruct W2 as [W|W]; [destruct (two_ne0 W)|exact W].
Qed.
Lemma sums_ok A P : ed_on A -> fst A <> fz 0 -> snd A <> fz 1 -> snd A <> snd ed_B -> Z.even (fval (mw A)) = true ->
  cr P (mont_u (snd A)) ->
  cr (fst (cs_sums P)) (mont_u (snd (ed_add A ed_B))) /\ cr (snd (cs_sums P)) (mont_u (snd (ed_add A (ed_neg ed_B)))).
Proof.
  intros H X Y N EV HP. pose proof (w_ne A H X Y) as WN. set (u := mont_u (snd A)) in *.
  assert (SQ : ((u * u + u * cA + fz 1) * u = mw A * mw A)%F).
  { unfold u. destruct A as [x y]. cbn [fst snd] in *. symmetry. exact (mw_sq x y H X Y). }
  pose proof (cr_xToY2 _ _ HP) as T. rewrite SQ in T. destruct (cr_sqrt _ _ T WN) as (r & HR & ER).
  pose proof (chord_B A H X Y N) as CB. pose proof (chord_N A H X Y N) as CN. cbv zeta in CB, CN. fold u in CB, CN.
  assert (UN : (u + fz (-9))%F <> fz 0).
  { intros Z. apply N. apply mont_u_inj; [exact Y|exact B_ne1|]. rewrite u_B. fold u. transitivity (u + fz (-9) - fz (-9))%F; [ring|]. rewrite Z, <- fp_of_sub. reflexivity. }
  assert (DN : ((u + fz (-9)) * (u + fz (-9)))%F <> fz 0) by (apply fp25_mul_ne; exact UN).
  apply (chord_solve _ _ _ _ _ DN) in CB. apply (chord_solve _ _ _ _ _ DN) in CN.
  unfold cs_sums. cbv zeta. set (t := cs_xToY2 P) in *. set (s := cs_sqrt t) in *.
  pose proof (cr_mul _ _ _ _ base2y_cw (cr_cw _ _ HR)) as T21. pose proof (cr_add0 _ _ 39420360 T ltac:(lia)) as T20.
  pose proof (cr2_sub _ _ _ _ T20 T21) as M. pose proof (cr2_add _ _ _ _ T20 T21) as AA.
  set (m := cs_sub _ _) in *. set (a := cs_add _ _) in *.
  pose proof (cr_recip _ _ (cr_cw _ _ (cr_sqr _ _ (cr2_cw _ _ (cr_add0 _ _ (-9) HP ltac:(lia)))))) as RI.
  set (d := cs_recip _) in *.
  assert (EM : fz (- (9 + 486662)) = (- fz (9 + 486662))%F) by (rewrite <- fp_of_opp; reflexivity).
  assert (FIN : forall f k, cw f k -> cr (cs_mulSmall (cs_add0 (cs_sub (cs_mul f d) P) (- (9 + 486662))) 1) (k * fp_inv ((u + fz (-9)) * (u + fz (-9))) - u + - fz (9 + 486662))%F).
  { intros f k Hf. pose proof (cr_mul _ _ _ _ Hf (cr_cw _ _ RI)) as K1. pose proof (cr2_add0 _ _ (- (9 + 486662)) (cr_sub _ _ _ _ K1 HP) ltac:(lia)) as K2.
    pose proof (cr_small _ _ 1 K2 ltac:(lia)) as K3. rewrite EM in K3. eapply cr_eq; [exact K3|]. ring. }
  rewrite (cr_neg _ _ HR). pose proof (even_odd _ WN EV r ER) as PAR.
  assert (VM : (mw A * mw A + fz 39420360 - two * fz wBz * r = (r - fz wBz) * (r - fz wBz))%F) by (rewrite <- wB_sq; destruct ER as [->| ->]; ring).
  assert (VA : (mw A * mw A + fz 39420360 + two * fz wBz * r = (r + fz wBz) * (r + fz wBz))%F) by (rewrite <- wB_sq; destruct ER as [->| ->]; ring).
  rewrite VM in M. rewrite VA in AA. clear VM VA T20 T21 HR.
  destruct (fval r mod 2 =? 0).
  - assert (E : r = mw A) by now apply PAR. subst r. cbn [fst snd]. split; [eapply cr_eq; [exact (FIN _ _ M)|exact CB]|eapply cr_eq; [exact (FIN _ _ AA)|exact CN]].
  - assert (E : r = (- mw A)%F). { destruct ER as [E|E]; [|exact E]. exfalso. apply PAR in E. discriminate E. } subst r. cbn [fst snd].
    split; [eapply cr_eq; [exact (FIN _ _ AA)|rewrite <- CB; ring]|eapply cr_eq; [exact (FIN _ _ M)|rewrite <- CN; ring]].
Qed.

(** ** Verify *)
Lemma urep_of P D : cr P (mont_u (snd D)) -> snd D <> fz 1 -> (fz 1 + snd D)%F <> fz 0 -> urep P D.
Proof.
  intros H N1 N2. pose proof (dl_ne _ N1) as N. exists (mont_u (snd D)). split; [now apply cr_cw|].
  assert (E : (mont_u (snd D) * (fz 1 - snd D) = fz 1 + snd D)%F) by (unfold mont_u; field; exact N).
  split; [|split; [exact N1|exact E]]. intros Z. apply N2. rewrite <- E, Z. ring.
Qed.
Lemma sub_add P Q : ed_on P -> ed_on Q -> ed_mul ed_L P = ed_zero -> ed_mul ed_L Q = ed_zero -> ed_mul ed_L (ed_add P Q) = ed_zero.
Proof.
  intros H1 H2 E1 E2. unfold ed_mul in *. rewrite (zmul_padd _ _ _ _ _ ed_group _ _ _ H1 H2), E1, E2. apply (g_0_l _ _ _ _ _ ed_group), (g_zero _ _ _ _ _ ed_group).
Qed.
Lemma sub_neg P : ed_on P -> ed_mul ed_L P = ed_zero -> ed_mul ed_L (ed_neg P) = ed_zero.
Proof.
  intros H1 E1. unfold ed_mul in *. rewrite (zmul_negp _ _ _ _ _ ed_group _ _ H1), E1. apply (gneg_zero _ _ _ _ _ ed_group).
Qed.
Lemma unpack_cr pub : bytes_ok pub -> length pub = 32%nat -> le2z pub < p25 -> cr (cs_unpack pub) (fz (le2z pub)).
Proof.
  intros O L H. destruct (cs_unpack_ok pub L O) as (_ & V & R & _). split; [|now rewrite V]. apply R. apply Z.lt_trans with p25; [exact H|reflexivity].
Qed.
Lemma shift8 x : (forall n, 9 <= n -> Z.testbit x n = false) -> Z.shiftr x 8 = Z.b2z (Z.testbit x 8).
Proof.
  intros H. apply Z.bits_inj'. intros n Hn. rewrite Z.shiftr_spec by exact Hn. destruct (Z.eq_dec n 0) as [->|N].
  - change (0 + 8) with 8. rewrite Z.bit0_odd. now destruct (Z.testbit x 8).
  - rewrite H by lia. symmetry. destruct (Z.testbit x 8); cbn [Z.b2z]; [|apply Z.bits_0]. change 1 with (2 ^ 0). rewrite bit_pow2 by lia. apply Z.eqb_neq. lia.
Qed.
Lemma preps32 v h : bytes_ok v -> length v = 32%nat -> bytes_ok h -> length h = 32%nat ->
  let '(vi, _, di, nvh, d) := cs_preps (0, 0, 0, 0) v h in
  exists dt, Z.shiftr (Z.lxor (Z.land nvh (Z.shiftl (Z.land di 0x80) 1)) vi) 8 = Z.b2z dt /\ length d = 32%nat /\ bytes_ok d /\
  (let D := le2z d + bb 32 * Z.b2z dt in
   Z.odd D = rel (Z.odd (le2z v)) false (Z.odd (le2z h)) false false /\
   forall n, 0 <= n < 256 -> rels (le2z v) (le2z h) D n).
Proof.
  intros Ov Lv Oh Lh. pose proof (preps_ok v h (0, 0, 0, 0) false false false ltac:(lia) Ov Oh ltac:(cbn; lia || auto)) as Q.
  destruct (cs_preps (0, 0, 0, 0) v h) as [[[[vi hi] di] nvh] d]. destruct Q as (Ld & Od & PS & NV & R). rewrite Lv in *. change (8 * Z.of_nat 32) with 256 in *.
  specialize (NV ltac:(intros ->; discriminate)). cbv zeta in PS. destruct PS as (Bv & Bh & V8 & H8 & D7).
  change 256 with (255 + 1) in V8, H8, D7. rewrite !pre_S in V8, H8, D7 by lia.
  set (dt := xorb (Z.testbit vi 8) (Z.testbit nvh 8 && Z.testbit di 7)). exists dt.
  assert (EX : Z.shiftr (Z.lxor (Z.land nvh (Z.shiftl (Z.land di 128) 1)) vi) 8 = Z.b2z dt).
  { rewrite shift8.
    - f_equal. rewrite Z.lxor_spec, Z.land_spec, Z.shiftl_spec by lia. rewrite Z.land_spec. change (Z.testbit 128 (8 - 1)) with true. rewrite andb_true_r. change (8 - 1) with 7. apply xorb_comm.
    - intros n Hn. rewrite Z.lxor_spec, Z.land_spec, Z.shiftl_spec by lia. rewrite (bit512 vi) by lia. rewrite Z.land_spec. change 128 with (2 ^ 7). rewrite bit_pow2 by lia.
      replace (7 =? n - 1) with false by (symmetry; apply Z.eqb_neq; lia). now rewrite !andb_false_r. }
  split; [exact EX|]. clear EX. split; [exact Ld|]. split; [exact Od|]. cbv zeta.
  pose proof (val_lt d Od) as Bd. rewrite Ld in Bd. pose proof (val_lt v Ov) as BV. rewrite Lv in BV. pose proof (val_lt h Oh) as BH. rewrite Lh in BH.
  set (D := le2z d + bb 32 * Z.b2z dt).
  assert (DL : forall n, 0 <= n < 256 -> Z.testbit D n = Z.testbit (le2z d) n).
  { intros n Hn. unfold D. change (bb 32) with (2 ^ 256) in *. rewrite <- (Z.mod_pow2_bits_low _ 256 n) by lia. rewrite Z.mul_comm, Z.mod_add by (apply Z.pow_nonzero; lia).
    rewrite Z.mod_small by exact Bd. reflexivity. }
  assert (D256 : Z.testbit D 256 = dt).
  { unfold D. change (bb 32) with (2 ^ 256) in *. assert (E : Z.testbit (Z.shiftr (le2z d + 2 ^ 256 * Z.b2z dt) 256) 0 = Z.testbit (le2z d + 2 ^ 256 * Z.b2z dt) 256) by (rewrite Z.shiftr_spec by lia; reflexivity).
    rewrite <- E. rewrite Z.shiftr_div_pow2 by lia. rewrite Z.mul_comm, Z.div_add by (apply Z.pow_nonzero; lia). rewrite Z.div_small by exact Bd. now destruct dt. }
  assert (HI : forall x, 0 <= x < bb 32 -> Z.testbit x 256 = false).
  { intros x Hx. change (bb 32) with (2 ^ 256) in *. rewrite <- (Z.mod_small x (2 ^ 256)) by exact Hx. apply Z.mod_pow2_bits_high. lia. }
  clearbody D. split.
  - specialize (R 0 ltac:(lia)). unfold rels in R. rewrite !pre_S, !pre_0 in R by lia. rewrite <- Z.bit0_odd, DL by lia. rewrite R. now rewrite !Z.bit0_odd.
  - intros n Hn. unfold rels. destruct (Z.eq_dec n 255) as [->|N].
    + change (255 + 1) with 256. rewrite D256, !HI by assumption. rewrite DL by lia. unfold dt. rewrite NV, V8, H8, D7. unfold rel.
      now destruct (Z.testbit (le2z v) 255), (Z.testbit (le2z h) 255), (Z.testbit (le2z d) 255).
    + specialize (R (n + 1) ltac:(lia)). unfold rels in R. rewrite !pre_S in R by lia. rewrite !DL by lia. exact R.
Qed.
Lemma Verify_ok A pub v h : bytes_ok pub -> length pub = 32%nat -> bytes_ok v -> length v = 32%nat -> bytes_ok h -> length h = 32%nat ->
  ed_on A -> ed_mul ed_L A = ed_zero -> A <> ed_zero -> A <> ed_B -> A <> ed_neg ed_B -> Z.even (fval (mw A)) = true ->
  le2z pub = fval (mont_u (snd A)) ->
  exists f, cs_Verify v h pub = cs_pack f /\ cr f (mont_u (snd (ed_add (ed_mul (le2z v) A) (ed_mul (le2z h) ed_B)))).
Proof.
  intros Op Lp Ov Lv Oh Lh HA AL AZ AB ANB EV EP.
  pose proof (sub_x0 A HA AL AZ) as X. pose proof (sub_y A HA AZ) as Y. pose proof (x_ne_y A HA X) as Y2.
  assert (N : snd A <> snd ed_B) by (intros E; destruct (same_y A ed_B HA ed_B_on E); contradiction).
  pose proof (unpack_cr pub Op Lp ltac:(rewrite EP; apply fval25)) as UC. rewrite EP, fp_of_val in UC.
  pose proof (urep_of _ _ UC Y Y2) as UP. destruct (sums_ok A _ HA X Y N EV UC) as (C0 & C1).
  pose proof (ed_add_on _ _ HA ed_B_on) as H0. pose proof (g_neg _ _ _ _ _ ed_group _ ed_B_on) as HNB. pose proof (ed_add_on _ _ HA HNB) as H1.
  assert (Z0 : ed_add A ed_B <> ed_zero).
  { intros E. apply ANB. rewrite (g_comm _ _ _ _ _ ed_group) in E by (assumption || exact ed_B_on). exact (gneg_unique _ _ _ _ _ ed_group ed_B A ed_B_on HA E). }
  assert (Z1 : ed_add A (ed_neg ed_B) <> ed_zero).
  { intros E. apply AB. rewrite (g_comm _ _ _ _ _ ed_group) in E by assumption. rewrite (gneg_unique _ _ _ _ _ ed_group _ A HNB HA E). apply (gneg_neg _ _ _ _ _ ed_group), ed_B_on. }
  pose proof (sub_add _ _ HA ed_B_on AL ord_B) as L0. pose proof (sub_add _ _ HA HNB AL (sub_neg _ ed_B_on ord_B)) as L1.
  unfold cs_Verify. cbv zeta. destruct (cs_sums (cs_unpack pub)) as [S0 S1]. cbn [fst snd] in C0, C1.
  pose proof (urep_of _ _ C0 (sub_y _ H0 Z0) (x_ne_y _ H0 (sub_x0 _ H0 L0 Z0))) as U0.
  pose proof (urep_of _ _ C1 (sub_y _ H1 Z1) (x_ne_y _ H1 (sub_x0 _ H1 L1 Z1))) as U1.
  pose proof (preps32 v h Ov Lv Oh Lh) as Q. destruct (cs_preps (0, 0, 0, 0) v h) as [[[[vi hi] di] nvh] d]. destruct Q as (dt & EX & Ld & Od & O0 & R).
  rewrite EX. clear EX. set (P := cs_unpack pub) in *.
  set (y := (cs_set 1, cs_set 0, (if Z.b2z dt =? 0 then cs_set 9 else P, cs_set 1), (S0, cs_set 1))).
  assert (C : cst A 0 0 dt y).
  { unfold cst, y, ev, od. cbn [Z.odd Z.b2z]. change (0 + 0) with 0. change (0 + 1 - 0) with 1. split; [rewrite pt_00; exact mrep_O|]. split.
    - rewrite pt_11 by exact HA. apply (mrep_one _ _ _ C0 H0). unfold mont_u. field. apply dl_ne, (sub_y _ H0 Z0).
    - destruct dt; cbn [Z.b2z Z.eqb].
      + rewrite pt_10 by exact HA. apply (mrep_one _ _ _ UC HA). unfold mont_u. field. apply dl_ne, Y.
      + rewrite pt_01. exact mrep_B. }
  pose proof (chain_ok A P S0 S1 HA UP U0 U1 v h d dt (Z.b2z dt) y ltac:(lia) ltac:(lia) Ov Oh Od ltac:(now destruct dt) C) as K. cbv zeta in K. rewrite Lv in K.
  specialize (K R). cbv zeta in O0. rewrite O0 in K. clear O0 R.
  match goal with |- context [fold_left ?f ?l ?i] => set (F := fold_left f l i) end.
  match type of K with context [fold_left ?f ?l ?i] => change (fold_left f l i) with F in K end. clearbody F.
  destruct F as [[[vi' hi'] di'] [[y0 y1] y2]].
  destruct K as (K1 & K2 & _ & KC). cbn [cst] in KC. destruct KC as (M0 & M2 & M1). rewrite !land1, K1, K2. eexists. split; [reflexivity|]. apply mrep_u. change (ed_add _ _) with (pt A (le2z v) (le2z h)).
  clear - M0 M1 M2. unfold ev, od in *. destruct (Z.odd (le2z v)), (Z.odd (le2z h)); cbn in M0, M1, M2 |- *; rewrite ?Z.add_0_r, ?Z.add_simpl_r, ?Z.sub_0_r in *; assumption.
Qed.
