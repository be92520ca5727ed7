(** Package pasta, continued: the limb functions compute in Z/p and Z/q, and the
    group functions compute the group law of the Pallas curve. *)
Require Import ZArith List Bool Lia Znumtheory Ring Field.
Require Import Verif.Base Verif.Fp Verif.Weier Verif.Jac Verif.Group Verif.EC Verif.Curves Verif.AllOrder.
Require Import Verif.ModelPastaCode Verif.ProofPastaF Verif.ModelPasta.
Import ListNotations.
Open Scope Z_scope.

(** ** From limbs to residues *)

(** Generic: p the modulus, i the inverse of 2^256. *)
Section Lift.
Variables p i R : Z.
Hypothesis Hi : (R * i) mod p = 1.
Hypothesis Hp : 1 < p.
Local Notation F := (fp_of p).
Lemma lift_Ri : fp_mul (F R) (F i) = F 1.
Proof using All. rewrite <- fp_of_mul. apply fp_of_eq. rewrite Hi. symmetry. apply Z.mod_small; lia. Qed.
Lemma lift_comm (a b : fp p) : fp_mul a b = fp_mul b a.
Proof. apply fp_eq. cbn. f_equal. ring. Qed.
Lemma lift_assoc (a b c : fp p) : fp_mul a (fp_mul b c) = fp_mul (fp_mul a b) c.
Proof. rewrite <- (fp_of_val _ a), <- (fp_of_val _ b), <- (fp_of_val _ c), <- !fp_of_mul. f_equal. ring. Qed.
Lemma lift_1 (a : fp p) : fp_mul a (F 1) = a.
Proof. rewrite <- (fp_of_val _ a), <- !fp_of_mul. f_equal. ring. Qed.
Lemma lift_mul r a b : (r * R) mod p = (a * b) mod p -> F (r * i) = fp_mul (F (a * i)) (F (b * i)).
Proof using All.
  intros H. apply fp_of_eq in H. transitivity (fp_mul (F (r * R)) (F (i * i))).
  - rewrite <- (lift_1 (F (r * i))), <- lift_Ri, <- !fp_of_mul. f_equal. ring.
  - rewrite H, <- !fp_of_mul. f_equal. ring.
Qed.
Lemma lift_from r a : (r * R) mod p = a mod p -> F r = F (a * i).
Proof using All.
  intros H. apply fp_of_eq in H. rewrite !fp_of_mul in *. rewrite <- H, <- lift_assoc, lift_Ri, lift_1. reflexivity.
Qed.
Lemma lift_to r a : r mod p = (a * R) mod p -> F (r * i) = F a.
Proof using All.
  intros H. apply fp_of_eq in H. rewrite !fp_of_mul in *. rewrite H, <- lift_assoc, lift_Ri, lift_1. reflexivity.
Qed.
Lemma lift_add r a b : r = (a + b) mod p -> F (r * i) = fp_add (F (a * i)) (F (b * i)).
Proof using All. intros ->. rewrite <- fp_of_add. apply fp_of_eq. rewrite Z.mul_mod_idemp_l by lia. f_equal. ring. Qed.
Lemma lift_sub r a b : r = (a - b) mod p -> F (r * i) = fp_sub (F (a * i)) (F (b * i)).
Proof using All. intros ->. rewrite <- fp_of_sub. apply fp_of_eq. rewrite Z.mul_mod_idemp_l by lia. f_equal. ring. Qed.
Lemma lift_opp r a : r = (- a) mod p -> F (r * i) = fp_opp (F (a * i)).
Proof using All. intros ->. rewrite <- fp_of_opp. apply fp_of_eq. rewrite Z.mul_mod_idemp_l by lia. f_equal. ring. Qed.
Lemma lift_inj a b : 0 <= a < p -> 0 <= b < p -> F (a * i) = F (b * i) -> a = b.
Proof using All.
  intros Ha Hb H. rewrite !fp_of_mul in H.
  apply (f_equal (fun x => fp_mul x (F R))) in H. rewrite <- !lift_assoc, (lift_comm (F i)), lift_Ri, !lift_1 in H.
  apply fp_of_eq in H. rewrite !Z.mod_small in H by lia. exact H.
Qed.
End Lift.

Lemma lval_inj a b : limbs4 a -> limbs4 b -> lval a = lval b -> a = b.
Proof.
  intros [La Wa] [Lb Wb] H.
  destruct (list4 _ La) as (a0 & a1 & a2 & a3 & ->), (list4 _ Lb) as (b0 & b1 & b2 & b3 & ->).
  repeat match goal with H : Forall _ (_ :: _) |- _ => inversion H; subst; clear H end.
  unfold word, lval in *. cbn [fold_right] in H. unfold ProofW64.B64 in *.
  assert (a0 = b0) by lia. assert (a1 = b1) by lia. assert (a2 = b2) by lia. assert (a3 = b3) by lia. congruence.
Qed.
Lemma NonZero_0 a : limbs4 a -> (NonZero a =? 0) = (lval a =? 0).
Proof.
  intros [La Wa]. destruct (list4 _ La) as (a0 & a1 & a2 & a3 & ->).
  repeat match goal with H : Forall _ (_ :: _) |- _ => inversion H; subst; clear H end.
  unfold NonZero, limb. cbn [nth]. unfold word, lval in *. cbn [fold_right]. unfold ProofW64.B64 in *.
  apply eq_true_iff_eq. rewrite !Z.eqb_eq, !Z.lor_eq_0_iff. lia.
Qed.
Lemma zero4_limbs : limbs4 zero4.
Proof. split; [reflexivity|]. repeat constructor; discriminate || reflexivity. Qed.
Lemma lval_zero4 : lval zero4 = 0. Proof. reflexivity. Qed.

(** ** The field Z/p *)
Notation pp := (w_p pallas).
Notation qq := (w_n pallas).
Lemma Pp_eq : Pp = pp. Proof. reflexivity. Qed.
Lemma Pq_eq : Pq = qq. Proof. reflexivity. Qed.
Lemma pp_prime : prime pp. Proof. exact (wv_prime _ (wv_field _ pallas_valid)). Qed.
Lemma qq_prime : prime qq. Proof. exact (wv_nprime _ pallas_valid). Qed.
Lemma pp_bound : 2 ^ 254 < pp < 2 ^ 255. Proof. split; reflexivity. Qed.
Lemma qq_bound : 2 ^ 254 < qq < 2 ^ 255. Proof. split; reflexivity. Qed.
Lemma pp_lt_qq : pp < qq. Proof. reflexivity. Qed.
Lemma pp1 : 1 < pp. Proof. reflexivity. Qed.
Lemma qq1 : 1 < qq. Proof. reflexivity. Qed.
Lemma invp_ok : (2 ^ 256 * invp) mod pp = 1. Proof. reflexivity. Qed.
Lemma invq_ok : (2 ^ 256 * invq) mod qq = 1. Proof. reflexivity. Qed.
Lemma Pp_odd : pp mod 2 = 1. Proof. reflexivity. Qed.

(** Reduced field elements and the residue they stand for (Montgomery form). *)
Definition okp (a : limbs) : Prop := limbs4 a /\ lval a < pp.
Definition okq (a : limbs) : Prop := limbs4 a /\ lval a < qq.
Definition fe (a : limbs) : fp pp := fp_of pp (lval a * invp).
Definition sc (a : limbs) : fp qq := fp_of qq (lval a * invq).

Lemma okp_bound a : okp a -> 0 <= lval a < pp.
Proof. intros [H H1]. apply limbs4_bound in H. lia. Qed.
Lemma okq_bound a : okq a -> 0 <= lval a < qq.
Proof. intros [H H1]. apply limbs4_bound in H. lia. Qed.
Lemma mul_lt_R a b p R : 0 <= a < p -> 0 <= b < p -> p < R -> a * b < R * p.
Proof. intros. nia. Qed.

Ltac usefield L lift inv :=
  destruct L as (?K1 & ?K2 & ?K3).

Lemma FpMul_ok a b : okp a -> okp b -> okp (FpMul a b) /\ fe (FpMul a b) = fp_mul (fe a) (fe b).
Proof.
  intros Ha Hb. pose proof (okp_bound _ Ha) as Ba. pose proof (okp_bound _ Hb) as Bb. destruct Ha as [La _], Hb as [Lb _].
  pose proof (fp_mul_ok a b La Lb (mul_lt_R _ _ _ _ Ba Bb (proj2 HPp))) as (K1 & K2 & K3).
  split; [split; [exact K1 | exact (proj2 K2)]|]. exact (lift_mul pp invp (2 ^ 256) invp_ok pp1 _ _ _ K3).
Qed.
Lemma FpSquare_ok a : okp a -> okp (FpSquare a) /\ fe (FpSquare a) = fp_mul (fe a) (fe a).
Proof.
  intros Ha. pose proof (okp_bound _ Ha) as Ba. destruct Ha as [La _].
  pose proof (fp_square_ok a La (mul_lt_R _ _ _ _ Ba Ba (proj2 HPp))) as (K1 & K2 & K3).
  split; [split; [exact K1 | exact (proj2 K2)]|]. exact (lift_mul pp invp (2 ^ 256) invp_ok pp1 _ _ _ K3).
Qed.
Lemma add_lt2 a b p : a < p -> b < p -> a + b < 2 * p. Proof. lia. Qed.
Lemma FpAdd_ok a b : okp a -> okp b -> okp (FpAdd a b) /\ fe (FpAdd a b) = fp_add (fe a) (fe b).
Proof.
  intros [La Ba] [Lb Bb].
  pose proof (fp_add_ok a b La Lb (add_lt2 _ _ _ Ba Bb)) as (K1 & K2 & K3).
  split; [split; [exact K1 | exact (proj2 K2)]|]. exact (lift_add pp invp (2 ^ 256) invp_ok pp1 _ _ _ K3).
Qed.
Lemma FpSub_ok a b : okp a -> okp b -> okp (FpSub a b) /\ fe (FpSub a b) = fp_sub (fe a) (fe b).
Proof.
  intros [La Ba] [Lb Bb].
  pose proof (fp_sub_ok a b La Lb Ba Bb) as (K1 & K2 & K3).
  split; [split; [exact K1 | exact (proj2 K2)]|]. exact (lift_sub pp invp (2 ^ 256) invp_ok pp1 _ _ _ K3).
Qed.
Lemma FpOpp_ok a : okp a -> okp (FpOpp a) /\ fe (FpOpp a) = fp_opp (fe a).
Proof.
  intros [La Ba].
  pose proof (fp_opp_ok a La Ba) as (K1 & K2 & K3).
  split; [split; [exact K1 | exact (proj2 K2)]|]. exact (lift_opp pp invp (2 ^ 256) invp_ok pp1 _ _ K3).
Qed.
Lemma FpTo_ok a : limbs4 a -> okp (FpToMontgomery a) /\ fe (FpToMontgomery a) = fp_of pp (lval a).
Proof.
  intros La. pose proof (fp_to_ok a La) as (K1 & K2 & K3).
  split; [split; [exact K1 | exact (proj2 K2)]|]. exact (lift_to pp invp (2 ^ 256) invp_ok pp1 _ _ K3).
Qed.
Lemma FpFrom_ok a : limbs4 a -> okp (FpFromMontgomery a) /\ lval (FpFromMontgomery a) = fval (fe a).
Proof.
  intros La. pose proof (fp_from_ok a La) as (K1 & K2 & K3).
  split; [split; [exact K1 | exact (proj2 K2)]|].
  pose proof (lift_from pp invp (2 ^ 256) invp_ok pp1 _ _ K3) as E. unfold fe. rewrite <- E, fval_of.
  symmetry. apply Z.mod_small. exact K2.
Qed.
Lemma fe_inj a b : okp a -> okp b -> fe a = fe b -> a = b.
Proof.
  intros Ha Hb E. apply lval_inj; [apply Ha | apply Hb|].
  apply (lift_inj pp invp (2 ^ 256) invp_ok pp1); auto using okp_bound.
Qed.

Lemma FqMul_ok a b : okq a -> okq b -> okq (FqMul a b) /\ sc (FqMul a b) = fp_mul (sc a) (sc b).
Proof.
  intros Ha Hb. pose proof (okq_bound _ Ha) as Ba. pose proof (okq_bound _ Hb) as Bb. destruct Ha as [La _], Hb as [Lb _].
  pose proof (fq_mul_ok a b La Lb (mul_lt_R _ _ _ _ Ba Bb (proj2 HPq))) as (K1 & K2 & K3).
  split; [split; [exact K1 | exact (proj2 K2)]|]. exact (lift_mul qq invq (2 ^ 256) invq_ok qq1 _ _ _ K3).
Qed.
Lemma FqSquare_ok a : okq a -> okq (FqSquare a) /\ sc (FqSquare a) = fp_mul (sc a) (sc a).
Proof.
  intros Ha. pose proof (okq_bound _ Ha) as Ba. destruct Ha as [La _].
  pose proof (fq_square_ok a La (mul_lt_R _ _ _ _ Ba Ba (proj2 HPq))) as (K1 & K2 & K3).
  split; [split; [exact K1 | exact (proj2 K2)]|]. exact (lift_mul qq invq (2 ^ 256) invq_ok qq1 _ _ _ K3).
Qed.
Lemma FqAdd_ok a b : okq a -> okq b -> okq (FqAdd a b) /\ sc (FqAdd a b) = fp_add (sc a) (sc b).
Proof.
  intros [La Ba] [Lb Bb].
  pose proof (fq_add_ok a b La Lb (add_lt2 _ _ _ Ba Bb)) as (K1 & K2 & K3).
  split; [split; [exact K1 | exact (proj2 K2)]|]. exact (lift_add qq invq (2 ^ 256) invq_ok qq1 _ _ _ K3).
Qed.
Lemma FqSub_ok a b : okq a -> okq b -> okq (FqSub a b) /\ sc (FqSub a b) = fp_sub (sc a) (sc b).
Proof.
  intros [La Ba] [Lb Bb].
  pose proof (fq_sub_ok a b La Lb Ba Bb) as (K1 & K2 & K3).
  split; [split; [exact K1 | exact (proj2 K2)]|]. exact (lift_sub qq invq (2 ^ 256) invq_ok qq1 _ _ _ K3).
Qed.
Lemma FqOpp_ok a : okq a -> okq (FqOpp a) /\ sc (FqOpp a) = fp_opp (sc a).
Proof.
  intros [La Ba].
  pose proof (fq_opp_ok a La Ba) as (K1 & K2 & K3).
  split; [split; [exact K1 | exact (proj2 K2)]|]. exact (lift_opp qq invq (2 ^ 256) invq_ok qq1 _ _ K3).
Qed.
Lemma FqTo_ok a : limbs4 a -> okq (FqToMontgomery a) /\ sc (FqToMontgomery a) = fp_of qq (lval a).
Proof.
  intros La. pose proof (fq_to_ok a La) as (K1 & K2 & K3).
  split; [split; [exact K1 | exact (proj2 K2)]|]. exact (lift_to qq invq (2 ^ 256) invq_ok qq1 _ _ K3).
Qed.
Lemma FqFrom_ok a : limbs4 a -> okq (FqFromMontgomery a) /\ lval (FqFromMontgomery a) = fval (sc a).
Proof.
  intros La. pose proof (fq_from_ok a La) as (K1 & K2 & K3).
  split; [split; [exact K1 | exact (proj2 K2)]|].
  pose proof (lift_from qq invq (2 ^ 256) invq_ok qq1 _ _ K3) as E. unfold sc. rewrite <- E, fval_of.
  symmetry. apply Z.mod_small. exact K2.
Qed.
Lemma sc_inj a b : okq a -> okq b -> sc a = sc b -> a = b.
Proof.
  intros Ha Hb E. apply lval_inj; [apply Ha | apply Hb|].
  apply (lift_inj qq invq (2 ^ 256) invq_ok qq1); auto using okq_bound.
Qed.

Lemma zero4_okp : okp zero4. Proof. split; [exact zero4_limbs | reflexivity]. Qed.
Lemma zero4_okq : okq zero4. Proof. split; [exact zero4_limbs | reflexivity]. Qed.
Lemma fe_zero4 : fe zero4 = fp_of pp 0. Proof. reflexivity. Qed.
Lemma sc_zero4 : sc zero4 = fp_of qq 0. Proof. reflexivity. Qed.
Ltac limbs_lit := split; [split; [reflexivity | repeat constructor; discriminate || reflexivity] | reflexivity].
Lemma one_okp : okp fp_set_one. Proof. limbs_lit. Qed.
Lemma FieldOne_eq : FieldOne = fp_set_one. Proof. reflexivity. Qed.
Lemma three_okp : okp FieldThree. Proof. limbs_lit. Qed.
Lemma eight_okp : okp FieldEight. Proof. limbs_lit. Qed.
Lemma coeffB_okp : okp GroupCoeffB. Proof. limbs_lit. Qed.
Lemma fe_one : fe fp_set_one = fp_of pp 1. Proof. apply fp_of_eq. reflexivity. Qed.
Lemma fe_three : fe FieldThree = fp_of pp 3. Proof. apply fp_of_eq. reflexivity. Qed.
Lemma fe_eight : fe FieldEight = fp_of pp 8. Proof. apply fp_of_eq. reflexivity. Qed.
Lemma fe_coeffB : fe GroupCoeffB = fp_of pp (w_b pallas). Proof. apply fp_of_eq. reflexivity. Qed.

Global Opaque FpMul FpSquare FpAdd FpSub FpOpp FpToMontgomery FpFromMontgomery.
Global Opaque FqMul FqSquare FqAdd FqSub FqOpp FqToMontgomery FqFromMontgomery.
Global Opaque fp_set_one FieldOne FieldThree FieldEight GroupCoeffB zero4 NonZero.
Global Opaque fe sc.

Definition Kfp : field_theory (fp_of pp 0) (fp_of pp 1) fp_add fp_mul fp_sub fp_opp fp_div fp_inv eq := fp_field pp pp_prime.
Definition Kfq : field_theory (fp_of qq 0) (fp_of qq 1) fp_add fp_mul fp_sub fp_opp fp_div fp_inv eq := fp_field qq qq_prime.
Add Field KFp : Kfp.
Add Field KFq : Kfq.
Local Notation F := (fp_of pp).

Lemma sub_0_iff (a b : fp pp) : fp_sub a b = F 0 <-> a = b.
Proof.
  split; intros H; [|subst; ring].
  transitivity (fp_add (fp_sub a b) b); [ring|]. rewrite H. ring.
Qed.
Lemma subq_0_iff (a b : fp qq) : fp_sub a b = fp_of qq 0 <-> a = b.
Proof.
  split; intros H; [|subst; ring].
  transitivity (fp_add (fp_sub a b) b); [ring|]. rewrite H. ring.
Qed.
Lemma NonZero_fe a : okp a -> (NonZero a =? 0) = true <-> fe a = F 0.
Proof.
  intros Ha. rewrite NonZero_0 by apply Ha. rewrite Z.eqb_eq. rewrite <- fe_zero4. split; intros H.
  - f_equal. apply lval_inj; [apply Ha | exact zero4_limbs | rewrite H; reflexivity].
  - apply fe_inj in H; [subst; reflexivity | exact Ha | exact zero4_okp].
Qed.
Lemma NonZero_sc a : okq a -> (NonZero a =? 0) = true <-> sc a = fp_of qq 0.
Proof.
  intros Ha. rewrite NonZero_0 by apply Ha. rewrite Z.eqb_eq. rewrite <- sc_zero4. split; intros H.
  - f_equal. apply lval_inj; [apply Ha | exact zero4_limbs | rewrite H; reflexivity].
  - apply sc_inj in H; [subst; reflexivity | exact Ha | exact zero4_okq].
Qed.
Lemma FpEquals_iff a b : okp a -> okp b -> FpEquals a b = true <-> fe a = fe b.
Proof.
  intros Ha Hb. destruct (FpSub_ok a b Ha Hb) as [K E]. unfold FpEquals.
  rewrite NonZero_fe, E, sub_0_iff by exact K. tauto.
Qed.
Lemma FpEquals_refl a : okp a -> FpEquals a a = true.
Proof. intros H. apply FpEquals_iff; auto. Qed.
Lemma FqEquals_iff a b : okq a -> okq b -> FqEquals a b = true <-> sc a = sc b.
Proof.
  intros Ha Hb. destruct (FqSub_ok a b Ha Hb) as [K E]. unfold FqEquals.
  rewrite NonZero_sc, E, subq_0_iff by exact K. tauto.
Qed.
Lemma FpEqualsZero_iff a : okp a -> FpEqualsZero a = true <-> fe a = F 0.
Proof. exact (NonZero_fe a). Qed.
Lemma FpEqualsOne_iff a : okp a -> FpEqualsOne a = true <-> fe a = F 1.
Proof. intros Ha. rewrite <- fe_one. exact (FpEquals_iff a fp_set_one Ha one_okp). Qed.
Global Opaque FpEquals FqEquals FpEqualsZero FpEqualsOne.

(** A field computation: okp together with its value. *)
Definition rep (a : limbs) (v : fp pp) : Prop := okp a /\ fe a = v.
Lemma rep_self a : okp a -> rep a (fe a). Proof. split; auto. Qed.
Lemma rep_mul a b u v : rep a u -> rep b v -> rep (FpMul a b) (fp_mul u v).
Proof. intros [Ha <-] [Hb <-]. apply FpMul_ok; auto. Qed.
Lemma rep_square a u : rep a u -> rep (FpSquare a) (fp_mul u u).
Proof. intros [Ha <-]. apply FpSquare_ok; auto. Qed.
Lemma rep_add a b u v : rep a u -> rep b v -> rep (FpAdd a b) (fp_add u v).
Proof. intros [Ha <-] [Hb <-]. apply FpAdd_ok; auto. Qed.
Lemma rep_sub a b u v : rep a u -> rep b v -> rep (FpSub a b) (fp_sub u v).
Proof. intros [Ha <-] [Hb <-]. apply FpSub_ok; auto. Qed.
Lemma rep_opp a u : rep a u -> rep (FpOpp a) (fp_opp u).
Proof. intros [Ha <-]. apply FpOpp_ok; auto. Qed.
Lemma rep_one : rep FieldOne (F 1). Proof. rewrite FieldOne_eq. split; [exact one_okp | exact fe_one]. Qed.
Lemma rep_three : rep FieldThree (F 3). Proof. split; [exact three_okp | exact fe_three]. Qed.
Lemma rep_eight : rep FieldEight (F 8). Proof. split; [exact eight_okp | exact fe_eight]. Qed.
Lemma rep_zero : rep zero4 (F 0). Proof. split; [exact zero4_okp | exact fe_zero4]. Qed.
Lemma rep_coeffB : rep GroupCoeffB (F (w_b pallas)). Proof. split; [exact coeffB_okp | exact fe_coeffB]. Qed.
Lemma rep_eq a u v : rep a u -> u = v -> rep a v. Proof. intros H <-. exact H. Qed.
Ltac reps := lazymatch goal with
  | |- rep (FpMul _ _) _ => apply rep_mul; reps
  | |- rep (FpSquare _) _ => apply rep_square; reps
  | |- rep (FpAdd _ _) _ => apply rep_add; reps
  | |- rep (FpSub _ _) _ => apply rep_sub; reps
  | |- rep (FpOpp _) _ => apply rep_opp; reps
  | |- rep FieldOne _ => exact rep_one
  | |- rep FieldThree _ => exact rep_three
  | |- rep FieldEight _ => exact rep_eight
  | |- rep zero4 _ => exact rep_zero
  | |- rep GroupCoeffB _ => exact rep_coeffB
  | H : rep ?x _ |- rep ?x _ => exact H
  end.

(** ** The group *)
Definition gok (g : group) : Prop := okp (gX g) /\ okp (gY g) /\ okp (gZ g).
Definition gpt (g : group) : pt pallas := jac _ (F 0) fp_mul fp_div fp_dec (fe (gX g)) (fe (gY g)) (fe (gZ g)).

Lemma F2 : F 2 = fp_add (F 1) (F 1). Proof. rewrite <- fp_of_add. reflexivity. Qed.
Lemma F3 : F 3 = fp_add (fp_add (F 1) (F 1)) (F 1). Proof. rewrite <- !fp_of_add. reflexivity. Qed.
Lemma F8 : F 8 = fp_mul (fp_mul (fp_add (F 1) (F 1)) (fp_add (F 1) (F 1))) (fp_add (F 1) (F 1)).
Proof. rewrite <- !fp_of_add, <- !fp_of_mul. reflexivity. Qed.
Lemma Fa : F (w_a pallas) = F 0. Proof. reflexivity. Qed.

Lemma IsZero_iff g : gok g -> IsZero g = true <-> fe (gZ g) = F 0.
Proof. intros (_ & _ & Hz). unfold IsZero. rewrite FpEquals_iff, fe_zero4 by (auto using zero4_okp). tauto. Qed.
Lemma gpt_zero g : fe (gZ g) = F 0 -> gpt g = pinf pallas.
Proof. intros E. unfold gpt. rewrite E. apply jac_0. Qed.
Lemma gpt_nonzero g : fe (gZ g) <> F 0 -> gpt g <> pinf pallas.
Proof. intros E. unfold gpt. rewrite jac_ne by exact E. discriminate. Qed.
Lemma IsZero_pt g : gok g -> IsZero g = true <-> gpt g = pinf pallas.
Proof.
  intros H. rewrite IsZero_iff by exact H. split; [apply gpt_zero|].
  intros E. destruct (fp_dec (fe (gZ g)) (F 0)) as [|N]; [assumption|]. exfalso. exact (gpt_nonzero g N E).
Qed.
Lemma GroupZero_ok : gok GroupZero. Proof. split; [|split]; limbs_lit. Qed.
Lemma GroupZero_pt : gpt GroupZero = pinf pallas.
Proof. apply gpt_zero. cbn [gZ GroupZero]. exact fe_zero4. Qed.

Lemma rep3 X Y Z x y z : rep X x -> rep Y y -> rep Z z ->
  gok (mkgroup X Y Z) /\ gpt (mkgroup X Y Z) = jac _ (F 0) fp_mul fp_div fp_dec x y z.
Proof. intros [H1 <-] [H2 <-] [H3 <-]. split; [split; [|split]; assumption | reflexivity]. Qed.

Lemma rep3z X Y Z x y z : rep X x -> rep Y y -> rep Z z -> z = F 0 ->
  gok (mkgroup X Y Z) /\ gpt (mkgroup X Y Z) = Inf (fp pp).
Proof. intros HX HY HZ ->. destruct (rep3 _ _ _ _ _ _ HX HY HZ) as [H ->]. split; [exact H | apply jac_0]. Qed.

Lemma GroupDbl_ok g : gok g -> gok (GroupDbl g) /\ gpt (GroupDbl g) = w_add pallas (gpt g) (gpt g).
Proof.
  intros Hg. unfold GroupDbl. destruct (IsZero g) eqn:Ez.
  { apply IsZero_pt in Ez; [|exact Hg]. rewrite Ez. split; [exact Hg | reflexivity]. }
  destruct g as [X Y Z]. destruct Hg as (Hx & Hy & Hz). cbn [gX gY gZ] in *.
  apply rep_self in Hx, Hy, Hz.
  pose proof (jac_dbl_a0 _ _ _ _ _ _ _ _ _ Kfp fp_dec _ (w_char2 pallas (wv_field _ pallas_valid)) (fe X) (fe Y) (fe Z) Fa) as HD.
  cbv zeta in HD. unfold w_add, gpt at 2 3. cbn [gX gY gZ]. rewrite (HD _ eq_refl). clear HD Ez.
  generalize dependent (fe X). generalize dependent (fe Y). generalize dependent (fe Z). intros z Hz y Hy x Hx.
  cbv zeta. apply rep3; (eapply rep_eq; [reps | rewrite ?F3, ?F8; ring]).
Qed.

Lemma grp : is_group (pt pallas) (pinf pallas) (w_add pallas) (w_neg pallas) (w_on pallas).
Proof. exact (w_group pallas (wv_field _ pallas_valid)). Qed.
Lemma on_inf : w_on pallas (pinf pallas). Proof. exact I. Qed.
Lemma add_inf_r P : w_add pallas P (pinf pallas) = P. Proof. destruct P; reflexivity. Qed.

(** The doubling test compares the coordinates themselves, not the points. *)
Lemma GroupAdd_ok g h : gok g -> gok h -> w_on pallas (gpt g) -> w_on pallas (gpt h) ->
  (gpt g = gpt h -> gpt g = pinf pallas \/ g = h) ->
  gok (GroupAdd g h) /\ gpt (GroupAdd g h) = w_add pallas (gpt g) (gpt h).
Proof.
  intros Hg Hh Og Oh Hsame. unfold GroupAdd.
  destruct (IsZero g) eqn:Ezg.
  { apply IsZero_pt in Ezg; [|exact Hg]. rewrite Ezg. split; [exact Hh | reflexivity]. }
  destruct (IsZero h) eqn:Ezh.
  { apply IsZero_pt in Ezh; [|exact Hh]. rewrite Ezh. split; [exact Hg | symmetry; apply add_inf_r]. }
  assert (Ng : fe (gZ g) <> F 0) by (intros E; apply IsZero_iff in E; [congruence | exact Hg]).
  assert (Nh : fe (gZ h) <> F 0) by (intros E; apply IsZero_iff in E; [congruence | exact Hh]).
  clear Ezg Ezh.
  destruct (FpEquals (gX g) (gX h) && FpEquals (gY g) (gY h) && FpEquals (gZ g) (gZ h)) eqn:Er.
  { rewrite !andb_true_iff in Er. destruct Er as ((E1 & E2) & E3).
    destruct Hg as (G1 & G2 & G3), Hh as (H1 & H2 & H3).
    apply FpEquals_iff in E1, E2, E3; try assumption. apply fe_inj in E1, E2, E3; try assumption.
    assert (g = h) by (destruct g, h; cbn in *; congruence). subst h. apply GroupDbl_ok. split; [|split]; assumption. }
  assert (Nsame : gpt g <> gpt h).
  { intros E. destruct (Hsame E) as [E0 | ->]; [exact (gpt_nonzero g Ng E0)|].
    destruct Hg as (G1 & G2 & G3).
    rewrite !FpEquals_refl in Er by assumption. discriminate. }
  clear Hsame Er. unfold w_add, gpt in *. destruct g as [X1 Y1 Z1], h as [X2 Y2 Z2].
  destruct Hg as (A1 & A2 & A3), Hh as (B1 & B2 & B3). cbn [gX gY gZ] in *.
  apply rep_self in A1, A2, A3, B1, B2, B3. cbv zeta.
  generalize dependent (fe X1). generalize dependent (fe Y1). generalize dependent (fe Z1).
  generalize dependent (fe X2). generalize dependent (fe Y2). generalize dependent (fe Z2).
  intros z2 B3 N2 y2 B2 x2 B1 O2 z1 A3 N1 y1 A2 x1 A1 O1 NS.
  destruct (fp_dec (fp_mul x2 (fp_mul z1 z1)) (fp_mul x1 (fp_mul z2 z2))) as [E|N].
  - assert (Ny : fp_mul (fp_mul y2 z1) (fp_mul z1 z1) <> fp_mul (fp_mul y1 z2) (fp_mul z2 z2)).
    { intros Ey. apply NS. symmetry. apply (jac_eq _ _ _ _ _ _ _ _ _ Kfp); assumption. }
    pose proof (jac_add_opp _ _ _ _ _ _ _ _ _ Kfp fp_dec (F (w_a pallas)) (F (w_b pallas)) x1 y1 z1 x2 y2 z2 N1 N2 E Ny O1 O2) as R.
    unfold pinf. rewrite R. eapply rep3z; [reps | reps | reps |].
    replace (fp_sub (fp_mul x2 (fp_mul z1 z1)) (fp_mul x1 (fp_mul z2 z2))) with (F 0) by (rewrite E; ring). ring.
  - assert (Nh : fp_sub (fp_mul x2 (fp_mul z1 z1)) (fp_mul x1 (fp_mul z2 z2)) <> F 0) by (intros E; apply N; exact (proj1 (sub_0_iff _ _) E)).
    pose proof (jac_add_ne _ _ _ _ _ _ _ _ _ Kfp fp_dec (F (w_a pallas)) (w_char2 pallas (wv_field _ pallas_valid))
       x1 y1 z1 x2 y2 z2 N1 N2) as HD.
    cbv zeta in HD. specialize (HD Nh _ eq_refl). rewrite HD. clear HD.
    apply rep3; (eapply rep_eq; [reps | ring]).
Qed.

(** ** Scalar multiplication *)
Lemma testbit_low a h i : 0 <= a < 2 ^ 64 -> 0 <= i < 64 -> Z.testbit (a + 2 ^ 64 * h) i = Z.testbit a i.
Proof.
  intros Ha Hi. rewrite <- (Z.mod_pow2_bits_low (a + 2 ^ 64 * h) 64 i) by lia.
  rewrite (Z.mul_comm (2 ^ 64)), Z_mod_plus_full, Z.mod_small by lia. reflexivity.
Qed.
Lemma testbit_high a h i : 0 <= a < 2 ^ 64 -> 64 <= i -> Z.testbit (a + 2 ^ 64 * h) i = Z.testbit h (i - 64).
Proof.
  intros Ha Hi. replace i with ((i - 64) + 64) at 1 by lia.
  rewrite <- Z.div_pow2_bits by lia.
  rewrite (Z.mul_comm (2 ^ 64)), Z_div_plus_full, Z.div_small by lia. reflexivity.
Qed.
Lemma land1_testbit a : (Z.land a 1 =? 1) = Z.testbit a 0.
Proof.
  rewrite Z.bit0_odd. change 1 with (Z.ones 1) at 1. rewrite Z.land_ones by lia.
  rewrite Zmod_odd. destruct (Z.odd a); reflexivity.
Qed.
Lemma bit_at_ok k j : limbs4 k -> (j < 256)%nat -> bit_at k j = Z.testbit (lval k) (Z.of_nat j).
Proof.
  intros [Lk Wk] Hj. unfold bit_at. rewrite land1_testbit, Z.shiftr_spec by lia. rewrite Z.add_0_l.
  destruct (list4 _ Lk) as (a0 & a1 & a2 & a3 & ->).
  repeat match goal with H : Forall _ (_ :: _) |- _ => inversion H; subst; clear H end.
  unfold word, lval, ProofW64.B64 in *. cbn [fold_right].
  assert (E : (j = 64 * (j / 64) + j mod 64)%nat) by (apply Nat.div_mod; discriminate).
  assert (Hr : (j mod 64 < 64)%nat) by (apply Nat.mod_upper_bound; discriminate).
  assert (Hq : (j / 64 < 4)%nat) by (apply Nat.div_lt_upper_bound; [discriminate | exact Hj]).
  generalize dependent (j / 64)%nat. generalize dependent (j mod 64)%nat. intros r Hr q E Hq. subst j. clear Hj.
  change 18446744073709551616 with (2 ^ 64) in *. unfold limb.
  assert (D : (q = 0 \/ q = 1 \/ q = 2 \/ q = 3)%nat) by (clear - Hq; lia).
  destruct D as [-> | [-> | [-> | ->]]]; cbn [nth];
    repeat (rewrite testbit_high by lia); rewrite testbit_low by lia; f_equal; lia.
Qed.

Lemma pallas_zmul_order P : w_on pallas P -> w_mul pallas qq P = pinf pallas.
Proof. exact (pallas_order P). Qed.

Lemma gen_mul_inj c j k P : w_field_ok c -> w_on c P -> prime (w_n c) -> w_mul c (w_n c) P = pinf c -> P <> pinf c ->
  w_mul c j P = w_mul c k P -> j mod w_n c = k mod w_n c.
Proof. intros Hf Ho Hn E N. apply (zmul_inj _ _ _ _ _ (w_group c Hf)); assumption. Qed.
Lemma mul_inj j k P : w_on pallas P -> P <> pinf pallas -> w_mul pallas j P = w_mul pallas k P -> j mod qq = k mod qq.
Proof. intros Ho N. exact (gen_mul_inj pallas j k P (wv_field _ pallas_valid) Ho qq_prime (pallas_zmul_order P Ho) N). Qed.
Lemma gen_mul_1 c P : w_field_ok c -> w_on c P -> w_mul c 1 P = P.
Proof. intros Hf. apply (zmul_1 _ _ _ _ _ (w_group c Hf)). Qed.
Lemma gen_mul_add c j k P : w_field_ok c -> w_on c P -> w_mul c (j + k) P = w_add c (w_mul c j P) (w_mul c k P).
Proof. intros Hf. apply (zmul_add _ _ _ _ _ (w_group c Hf)). Qed.
Lemma gen_mul_on c k P : w_field_ok c -> w_on c P -> w_on c (w_mul c k P).
Proof. intros Hf. apply (zmul_ok _ _ _ _ _ (w_group c Hf)). Qed.
Lemma gen_mul_inf c k : w_field_ok c -> w_mul c k (pinf c) = pinf c.
Proof. intros Hf. apply (zmul_zero _ _ _ _ _ (w_group c Hf)). Qed.
Notation pf := (wv_field _ pallas_valid).
Definition mul_1 P := gen_mul_1 pallas P pf.
Definition mul_add j k P := gen_mul_add pallas j k P pf.
Definition mul_on k P := gen_mul_on pallas k P pf.
Definition mul_inf k := gen_mul_inf pallas k pf.

Section ScalarMul.
Variables (k : limbs) (p : group).
Hypothesis Hk : okq k.
Hypothesis Hg : gok p.
Hypothesis Ho : w_on pallas (gpt p).
Hypothesis Hnz : gpt p <> pinf pallas.
Let v := lval (FqFromMontgomery k).
Let f := fun r i => let tmp := GroupDbl r in
      if bit_at (FqFromMontgomery k) (254 - i) then GroupAdd tmp p else tmp.
Lemma smul_v : 0 <= v < qq.
Proof using All. apply okq_bound. apply FqFrom_ok, Hk. Qed.
Lemma smul_div n : (n < 255)%nat ->
  v / 2 ^ (255 - Z.of_nat (S n)) = 2 * (v / 2 ^ (255 - Z.of_nat n)) + Z.b2z (Z.testbit v (Z.of_nat (254 - n))).
Proof using All.
  intros Hn. rewrite (Nat2Z.inj_sub 254 n) by lia. change (Z.of_nat 254) with 254.
  replace (255 - Z.of_nat n) with ((255 - Z.of_nat (S n)) + 1) by lia.
  rewrite Z.pow_add_r, <- Z.div_div by lia. change (2 ^ 1) with 2.
  replace (254 - Z.of_nat n) with (255 - Z.of_nat (S n)) by lia.
  rewrite Z.testbit_spec'  by lia.
  apply Z.div_mod. discriminate.
Qed.
Lemma smul_inv n : (n <= 255)%nat ->
  let r := fold_left f (seq 0 n) GroupZero in
  gok r /\ gpt r = w_mul pallas (v / 2 ^ (255 - Z.of_nat n)) (gpt p).
Proof using All.
  induction n as [|n IH]; intros Hn.
  - cbn [seq fold_left]. split; [exact GroupZero_ok|]. rewrite GroupZero_pt.
    pose proof smul_v as B. rewrite Z.div_small; [reflexivity|].
    change (255 - Z.of_nat 0) with 255. pose proof qq_bound. lia.
  - rewrite seq_S, fold_left_app. cbn [fold_left Nat.add]. destruct (IH ltac:(lia)) as [I1 I2]. clear IH.
    set (r := fold_left f (seq 0 n) GroupZero) in *. clearbody r. cbv zeta. unfold f.
    destruct (GroupDbl_ok r I1) as [D1 D2]. rewrite I2 in D2. cbv zeta.
    rewrite bit_at_ok by (apply (FqFrom_ok k (proj1 Hk)) || lia). fold v. rewrite smul_div by lia.
    pose proof (smul_div n ltac:(lia)) as Ed.
    assert (Hm : 0 <= v / 2 ^ (255 - Z.of_nat n)) by (apply Z.div_pos; [apply smul_v | apply Z.pow_pos_nonneg; lia]).
    assert (Hle : v / 2 ^ (255 - Z.of_nat (S n)) <= v).
    { apply Z.div_le_upper_bound; [apply Z.pow_pos_nonneg; lia|].
      pose proof (Z.pow_pos_nonneg 2 (255 - Z.of_nat (S n)) ltac:(lia) ltac:(lia)). pose proof smul_v. nia. }
    set (m := v / 2 ^ (255 - Z.of_nat n)) in *. clearbody m.
    assert (E2 : gpt (GroupDbl r) = w_mul pallas (2 * m) (gpt p)).
    { rewrite D2. replace (2 * m) with (m + m) by ring. symmetry. apply mul_add. exact Ho. }
    destruct (Z.testbit v (Z.of_nat (254 - n))); cbn [Z.b2z] in *.
    + destruct (GroupAdd_ok (GroupDbl r) p D1 Hg) as [A1 A2].
      * rewrite E2. apply mul_on. exact Ho.
      * exact Ho.
      * intros E. exfalso. rewrite E2 in E. rewrite <- (mul_1 (gpt p) Ho) in E at 2.
        apply mul_inj in E; [|exact Ho | exact Hnz].
        pose proof smul_v. rewrite !Z.mod_small in E by lia. lia.
      * split; [exact A1|]. rewrite A2, E2, mul_add, mul_1 by exact Ho. reflexivity.
    + split; [exact D1|]. rewrite E2, Z.add_0_r. reflexivity.
Qed.
End ScalarMul.

Theorem GroupScalarMul_ok k p : okq k -> gok p -> w_on pallas (gpt p) ->
  gok (GroupScalarMul k p) /\ gpt (GroupScalarMul k p) = w_mul pallas (fval (sc k)) (gpt p).
Proof.
  intros Hk Hg Ho. unfold GroupScalarMul.
  destruct (IsZero p) eqn:Ez.
  { apply IsZero_pt in Ez; [|exact Hg]. rewrite Ez. split; [exact GroupZero_ok|].
    rewrite GroupZero_pt. symmetry. apply mul_inf. }
  destruct (FqEquals k zero4) eqn:Ek.
  { apply FqEquals_iff in Ek; [|exact Hk | exact zero4_okq]. rewrite Ek, sc_zero4. split; [exact GroupZero_ok | exact GroupZero_pt]. }
  assert (Hnz : gpt p <> pinf pallas) by (intros E; apply IsZero_pt in E; [congruence | exact Hg]).
  cbv zeta. destruct (smul_inv k p Hk Hg Ho Hnz 255 (le_n _)) as [A B]. cbv zeta in A, B.
  split; [exact A|]. rewrite B. f_equal. change (255 - Z.of_nat 255) with 0. rewrite Z.pow_0_r, Z.div_1_r.
  apply FqFrom_ok, Hk.
Qed.
