(** The simplified SWU map and the isogeny on field elements. *)
From Coq Require Import ZArith List Bool Lia Znumtheory Ring Field.
From Verif Require Import Base ModelBlsF SpecBls ModelBls ProofBlsF ProofBlsE SpecBlsG BlsPrime ProofBlsH Fp BlsFp2 BlsFrob ProofBlsI Weier Group SpecBlsSig ProofBlsJ ProofBlsK BlsPrimes Mont63 BlsG2Gen ProofBlsL BlsExp SpecBlsMap ProofBlsN IsoAlg.
Import ListNotations.
Local Open Scope Z_scope.
Add Field KFO1 : Kp1.
Add Field KFO2 : Kp2.

(** ** Small numbers *)
Lemma q2_addz a b c d : q2_add (q2 p a b) (q2 p c d) = q2 p (a + c) (b + d).
Proof. unfold q2_add, q2. cbn [fst snd]. rewrite !fp_of_add. reflexivity. Qed.
Lemma q2_mulz a b c d : q2_mul (q2 p a b) (q2 p c d) = q2 p (a * c - b * d) (a * d + b * c).
Proof. unfold q2_mul, q2. cbn [fst snd]. rewrite fp_of_sub, fp_of_add, !fp_of_mul. reflexivity. Qed.
Lemma q2_oppz a b : q2_opp (q2 p a b) = q2 p (- a) (- b).
Proof. unfold q2_opp, q2. cbn [fst snd]. rewrite !fp_of_opp. reflexivity. Qed.
Lemma q2_modz a b c d : (a mod p =? c mod p) && (b mod p =? d mod p) = true -> q2 p a b = q2 p c d.
Proof. intros H. apply andb_true_iff in H. destruct H as [H1 H2]. apply Z.eqb_eq in H1, H2. unfold q2. f_equal; apply fp_of_eq; assumption. Qed.
Ltac nums := unfold n120, n11, n23; rewrite ?q2_addz, ?q2_mulz, ?q2_oppz; repeat (rewrite ?q2_addz, ?q2_mulz, ?q2_oppz).
Ltac numeq := nums; apply q2_modz; vm_cast_no_check (@eq_refl bool true).
Definition vv : Fp2 := q2 p (-1) 1.
Lemma hA : iso_A = q2_opp (q2_mul (n120 Fp2 o2 q2_add q2_mul) (q2_mul vv vv)).
Proof. unfold iso_A, vv. numeq. Qed.
Lemma hB : iso_B = q2_mul (q2_mul (q2_mul (q2_add o2 o2) (n11 Fp2 o2 q2_add q2_mul)) (n23 Fp2 o2 q2_add q2_mul)) (q2_mul (q2_mul vv vv) vv).
Proof. unfold iso_B, vv. numeq. Qed.
Lemma hb : q2 p 4 4 = q2_mul (q2_add o2 o2) (q2_mul (q2_mul vv vv) vv).
Proof. unfold vv. numeq. Qed.
Notation t2 := (q2_add o2 o2).
Notation t3 := (q2_add (q2_add o2 o2) o2).
Local Infix "*'" := q2_mul (at level 40, left associativity).
Lemma h13 : t3 *' t3 *' k13 = o2. Proof. unfold k13, vv. numeq. Qed.
Lemma h12 : t3 *' k12 = q2_opp (t2 *' t2 *' vv). Proof. unfold k12, vv. numeq. Qed.
Lemma h11 : t3 *' k11 = t2 *' t2 *' (vv *' vv). Proof. unfold k11, vv. numeq. Qed.
Lemma h10 : t3 *' t3 *' k10 = t2 *' t2 *' t2 *' (q2_add (t2 *' t3 *' t3) o2) *' (vv *' vv *' vv). Proof. unfold k10, vv. numeq. Qed.
Lemma h21 : k21 = q2_opp (t2 *' t2 *' t3 *' vv). Proof. unfold k21, vv. numeq. Qed.
Lemma h20 : k20 = t2 *' t2 *' t3 *' t3 *' (vv *' vv). Proof. unfold k20, vv. numeq. Qed.
Lemma h33 : t3 *' t3 *' t3 *' k33 = q2_opp o2. Proof. unfold k33, vv. numeq. Qed.
Lemma h32 : t3 *' k32 = t2 *' vv. Proof. unfold k32, vv. numeq. Qed.
Lemma h31 : t3 *' t3 *' k31 = q2_opp (t2 *' t2 *' n11 Fp2 o2 q2_add q2_mul *' (vv *' vv)). Proof. unfold k31, vv. numeq. Qed.
Lemma h30 : t3 *' t3 *' t3 *' k30 = t2 *' t2 *' t2 *' (q2_add (t2 *' n23 Fp2 o2 q2_add q2_mul) o2) *' (vv *' vv *' vv). Proof. unfold k30, vv. numeq. Qed.
Lemma h42 : k42 = q2_opp (t2 *' t3 *' t3 *' vv). Proof. unfold k42, vv. numeq. Qed.
Lemma h41 : k41 = t2 *' t2 *' t3 *' t3 *' t3 *' (vv *' vv). Proof. unfold k41, vv. numeq. Qed.
Lemma h40 : k40 = q2_opp (t2 *' t2 *' t2 *' t3 *' t3 *' t3 *' (vv *' vv *' vv)). Proof. unfold k40, vv. numeq. Qed.
Lemma c3 : t3 <> z2. Proof. exact char3_2. Qed.
Notation iD := (d Fp2 o2 q2_add q2_mul q2_sub vv).
Notation iX := (isoX Fp2 o2 q2_add q2_mul q2_sub q2_div vv).
Notation iY := (isoY Fp2 o2 q2_add q2_mul q2_sub q2_opp q2_div vv).
Lemma iso_pts x y : iD x <> z2 -> iso_map (Weier.Aff _ x y) = Weier.Aff _ (iX x) (iY x y).
Proof.
  intros N. cbn [iso_map].
  pose proof (iso_polX _ _ _ _ _ _ _ _ _ Kp2 vv c3 _ _ _ _ _ _ h13 h12 h11 h10 h21 h20 x N) as EX.
  pose proof (iso_polY _ _ _ _ _ _ _ _ _ Kp2 vv c3 _ _ _ _ _ _ _ h33 h32 h31 h30 h42 h41 h40 x y N) as EY.
  apply f_equal2; [exact EX|exact EY].
Qed.
Lemma iso_dens x : poly3 k20 k21 o2 z2 x = iD x *' iD x /\ poly3 k40 k41 k42 o2 x = iD x *' iD x *' iD x.
Proof.
  split; [exact (xden _ _ _ _ _ _ _ _ _ Kp2 vv _ _ h21 h20 x)|exact (yden _ _ _ _ _ _ _ _ _ Kp2 vv _ _ _ h42 h41 h40 x)].
Qed.
(** ** Residues *)
Lemma pow_chi a v : c_powmod ctx_blsp a (Z.to_pos ((mc_p ctx_blsp - 1) / 2)) = Some v -> chi (fp_of p a) = fp_of p v.
Proof.
  intros V. assert (PN : p <> 0) by (pose proof p_gt0; lia). apply (c_powmod_spec _ ctx_blsp_ok) in V.
  rewrite Z2Pos.id in V by (vm_compute; reflexivity). rewrite ctx_p in V.
  unfold chi. rewrite (pw1_val p). apply fp_of_eq. rewrite <- V.
  assert (EN : Z.of_nat (e12 p) = (p - 1) / 2).
  { Local Transparent e12. unfold e12. Local Opaque e12. apply Z2Nat.id. apply Z.div_pos; [pose proof p_gt0|]; lia. }
  rewrite EN. exact (eq_sym (Z.mod_mod _ _ PN)).
Qed.
Lemma chi_5 : chi (fp_of p 5) = fp_opp f1.
Proof.
  rewrite (pow_chi 5 (p - 1)).
  - replace (p - 1) with (-1 + 1 * p) by ring. rewrite <- fp_of_opp. apply fp_of_eq. apply Z_mod_plus_full.
  - vm_cast_no_check (@eq_refl (option Z) (Some (p - 1))).
Qed.
Lemma chi_32 : chi (fp_of p 32) = fp_opp f1.
Proof.
  rewrite (pow_chi 32 (p - 1)).
  - replace (p - 1) with (-1 + 1 * p) by ring. rewrite <- fp_of_opp. apply fp_of_eq. apply Z_mod_plus_full.
  - vm_cast_no_check (@eq_refl (option Z) (Some (p - 1))).
Qed.
Lemma normz a b : q2_norm (q2 p a b) = fp_of p (a * a + b * b).
Proof. unfold q2_norm, q2. cbn [fst snd]. rewrite fp_of_add, !fp_of_mul. reflexivity. Qed.
Lemma chi_nonsq a : chi (q2_norm a) = fp_opp f1 -> ~ is_square a.
Proof.
  intros C [s E]. destruct (q2_dec a z2) as [Z|N].
  - rewrite Z, norm_z, chi_0 in C. assert (X : f1 = f0) by (transitivity (fp_opp (fp_opp f1)); [ring|]; rewrite <- C; ring). apply ne_pm. congruence.
  - assert (S : is_square a) by (exists s; exact E). apply (square_norm a N) in S. apply ne_pm. congruence.
Qed.
Lemma Z_nonsq : ~ is_square iso_Z.
Proof. apply chi_nonsq. unfold iso_Z. rewrite normz. exact chi_5. Qed.
Lemma b_nonsq : ~ is_square (q2 p 4 4).
Proof. apply chi_nonsq. rewrite normz. exact chi_32. Qed.

(** ** Points of E1 *)
Lemma e1_eq x y : e1_on (Weier.Aff _ x y) <-> q2_mul y y = e1_rhs x.
Proof. reflexivity. Qed.
Lemma e1_den x y : q2_mul y y = e1_rhs x -> iD x <> z2.
Proof.
  intros E D. apply b_nonsq. exists y. exact (iso_kernel _ _ _ _ _ _ _ _ _ Kp2 vv _ _ _ hA hB hb x y D E).
Qed.
Lemma iso_on_E Q : e1_on Q -> g2_on (iso_map Q).
Proof.
  destruct Q as [|x y]; [intros _; exact I|]. intros E. pose proof (e1_den x y E) as D. rewrite (iso_pts x y D).
  exact (iso_on _ _ _ _ _ _ _ _ _ Kp2 vv _ _ _ hA hB hb c3 x y D E).
Qed.
(** no point of order 2 *)
Lemma e1_y x y : q2_mul y y = e1_rhs x -> y <> z2.
Proof.
  intros E Z. pose proof (e1_den x y E) as D. pose proof (iso_on_E (Weier.Aff _ x y) E) as O.
  rewrite (iso_pts x y D) in O. assert (Y : iY x y = z2).
  { unfold isoY. rewrite Z. 
    match goal with |- q2_opp (q2_div (q2_mul z2 ?a) ?b) = z2 => replace (q2_mul z2 a) with z2 by ring end.
    unfold q2_div. ring. }
  rewrite Y in O. assert (P2 : g2_mul 2 (Weier.Aff _ (iX x) z2) = g2_inf).
  { unfold g2_mul. rewrite (zmul_double _ _ _ _ _ G2 1) by exact O. rewrite (zmul_1 _ _ _ _ _ G2) by exact O.
    unfold g2_add. cbn [Weier.padd]. destruct (q2_dec (iX x) (iX x)) as [_|N]; [|congruence].
    destruct (q2_dec z2 (q2_opp z2)) as [_|N]; [reflexivity|]. exfalso. apply N. ring. }
  apply no_two in P2; [discriminate|exact O].
Qed.
Lemma rhs_ne x : e1_rhs x <> z2.
Proof. intros E. apply (e1_y x z2); [rewrite E; ring|reflexivity]. Qed.
(** ** The SWU map *)
Lemma A_ne : iso_A <> z2.
Proof.
  unfold iso_A, q2. intros E. apply (f_equal snd) in E. cbn [snd] in E. revert E. apply fp_of_ne0.
  Local Transparent bls_p. vm_compute. split; reflexivity. Local Opaque bls_p.
Qed.
Lemma Z_ne : iso_Z <> z2.
Proof. intros E. apply Z_nonsq. exists z2. rewrite E. ring. Qed.
Lemma t_zero u : swu_t u = z2 <-> u = z2.
Proof.
  split.
  - intros E. unfold swu_t in E. cbv zeta in E. destruct (q2_dec u z2) as [|N]; [assumption|exfalso].
    assert (E' : q2_mul (q2_mul iso_Z (q2_mul u u)) (q2_add (q2_mul iso_Z (q2_mul u u)) o2) = z2) by (rewrite <- E; ring).
    apply int2 in E'. destruct E' as [E'|E'].
    + apply int2 in E'. destruct E' as [E'|E']; [exact (Z_ne E')|]. apply int2 in E'. destruct E'; contradiction.
    + apply Z_nonsq. exists (q2_div (ii p) u).
      transitivity (q2_div (q2_mul (ii p) (ii p)) (q2_mul u u)); [field; exact N|]. rewrite (ii_2 p bls_p_prime).
      transitivity (q2_sub iso_Z (q2_div (q2_add (q2_mul iso_Z (q2_mul u u)) o2) (q2_mul u u))); [field; exact N|]. rewrite E'. field. exact N.
  - intros ->. unfold swu_t. cbv zeta. ring.
Qed.
Lemma rhs_x2 u : u <> z2 -> let s := q2_mul iso_Z (q2_mul u u) in
  e1_rhs (swu_x2 u (swu_x1 u)) = q2_mul (q2_mul (q2_mul s s) s) (e1_rhs (swu_x1 u)).
Proof.
  intros N. cbv zeta. assert (NT : swu_t u <> z2) by (rewrite t_zero; exact N).
  unfold swu_x1. destruct (q2_dec (swu_t u) z2) as [E|_]; [contradiction|].
  exact (swu_second _ _ _ _ _ _ _ _ _ Kp2 iso_A iso_B (q2_mul iso_Z (q2_mul u u)) A_ne NT).
Qed.
(** one of the two candidates is the abscissa of a point *)
Lemma x2_square u : u <> z2 -> ~ is_square (e1_rhs (swu_x1 u)) -> is_square (e1_rhs (swu_x2 u (swu_x1 u))).
Proof.
  intros N S. rewrite (rhs_x2 u N). set (g := e1_rhs (swu_x1 u)) in *. clearbody g.
  destruct (nonsquare_mul iso_Z g Z_nonsq S) as [r R].
  exists (q2_mul r (q2_mul iso_Z (q2_mul u (q2_mul u u)))).
  transitivity (q2_mul (q2_mul r r) (q2_mul (q2_mul iso_Z (q2_mul u (q2_mul u u))) (q2_mul iso_Z (q2_mul u (q2_mul u u))))); [ring|].
  rewrite R. ring.
Qed.
