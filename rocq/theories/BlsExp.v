(** Every point of y^2 = x^3 + 4(1+i) over F_p(i) is killed by the product of the
    primes that divide the number of points. *)
From Coq Require Import ZArith List Bool Lia Znumtheory Ring Field.
From Verif Require Import Base ModelBlsF SpecBls ProofBlsE SpecBlsG BlsPrime ProofBlsH Fp BlsFp2 BlsFrob ProofBlsI Weier Group SpecBlsSig ProofBlsJ ProofBlsK BlsPrimes BlsPrimes2 BlsCard Mont63 BlsG2Gen ProofBlsL BlsTors.
Import ListNotations.
Local Open Scope Z_scope.
Add Field KFX1 : Kp1.
Add Field KFX2 : Kp2.

(** ** A code for the points *)
Definition g2_code (P : g2pt) : Z :=
  match P with
  | Weier.Inf _ => 0
  | Weier.Aff _ x y => 1 + 2 * (fval (fst x) * p + fval (snd x)) + (if small2 y then 1 else 0)
  end.
Lemma mix_b a b q : 0 <= a < q -> 0 <= b < q -> 0 <= a * q + b <= q * q - 1.
Proof. nia. Qed.
Lemma mix_i a b c d q : 0 <= a < q -> 0 <= b < q -> 0 <= c < q -> 0 <= d < q -> a * q + b = c * q + d -> a = c /\ b = d.
Proof. intros A B C D E. assert (a = c) by (destruct (Z.lt_trichotomy a c) as [L|[L|L]]; nia). subst. lia. Qed.
Lemma code_bound P : g2_on P -> 0 <= g2_code P < 2 * p * p + 1.
Proof.
  intros _. destruct P as [|x y]; cbn [g2_code].
  - pose proof p_gt0. nia.
  - pose proof (fv_bound (fst x)) as B0. pose proof (fv_bound (snd x)) as B1. pose proof p_gt0 as P0.
    pose proof (mix_b _ _ _ B0 B1). destruct (small2 y); lia.
Qed.
Lemma code_inj P Q : g2_on P -> g2_on Q -> g2_code P = g2_code Q -> P = Q.
Proof.
  intros HP HQ E. destruct P as [|x y], Q as [|x' y']; cbn [g2_code] in E; [reflexivity| | |].
  - pose proof (fv_bound (fst x')). pose proof (fv_bound (snd x')). pose proof p_gt0.
    assert (0 <= fval (fst x') * p) by nia. destruct (small2 y'); lia.
  - pose proof (fv_bound (fst x)). pose proof (fv_bound (snd x)). pose proof p_gt0.
    assert (0 <= fval (fst x) * p) by nia. destruct (small2 y); lia.
  - assert (EX : x = x' /\ small2 y = small2 y').
    { pose proof (fv_bound (fst x)) as A0. pose proof (fv_bound (snd x)) as A1.
      pose proof (fv_bound (fst x')) as B0. pose proof (fv_bound (snd x')) as B1.
      assert (Q : fval (fst x) * p + fval (snd x) = fval (fst x') * p + fval (snd x') /\ small2 y = small2 y').
      { destruct (small2 y), (small2 y'); split; (reflexivity || lia). }
      destruct Q as [Q Q2]. split; [|exact Q2].
      assert (R : fval (fst x) = fval (fst x') /\ fval (snd x) = fval (snd x')).
      { exact (mix_i _ _ _ _ _ A0 A1 B0 B1 Q). }
      destruct R as [R1 R2]. apply fp_eq in R1, R2. destruct x, x'. cbn [fst snd] in *. congruence. }
    destruct EX as [-> ES]. f_equal.
    unfold g2_on in HP, HQ. cbn [Weier.on_curve] in HP, HQ.
    assert (E2 : q2_mul (q2_sub y y') (q2_add y y') = q2 p 0 0).
    { transitivity (q2_sub (q2_mul y y) (q2_mul y' y')); [ring|]. rewrite HP, HQ. ring. }
    assert (I : q2_sub y y' = q2 p 0 0 \/ q2_add y y' = q2 p 0 0).
    { destruct (q2_dec (q2_sub y y') (q2 p 0 0)) as [|N]; [left; assumption|right].
      transitivity (q2_div (q2_mul (q2_sub y y') (q2_add y y')) (q2_sub y y')); [field; exact N|]. rewrite E2. field. exact N. }
    destruct I as [I|I].
    + transitivity (q2_add (q2_sub y y') y'); [ring|]. rewrite I. ring.
    + assert (Y : y' = q2_opp y) by (transitivity (q2_sub (q2_add y y') y); [ring|]; rewrite I; ring).
      destruct (q2_dec y (q2 p 0 0)) as [Z|N].
      * rewrite Y, Z. ring.
      * rewrite Y, small2_neg in ES by exact N. destruct (small2 y); discriminate.
Qed.

(** ** No point of order 2 *)
Lemma norm_mul (x y : fp2 p) : q2_norm (q2_mul x y) = fp_mul (q2_norm x) (q2_norm y).
Proof. destruct x as [a b], y as [c d]. unfold q2_norm, q2_mul. cbn [fst snd]. ring. Qed.
Lemma cube32 : exists v, c_powmod ctx_blsp 32 (Z.to_pos ((mc_p ctx_blsp - 1) / 3)) = Some v /\ v <> 1.
Proof.
  assert (H : match c_powmod ctx_blsp 32 (Z.to_pos ((mc_p ctx_blsp - 1) / 3)) with Some v => negb (v =? 1) | None => false end = true)
    by vm_cast_no_check (@eq_refl bool true).
  destruct (c_powmod ctx_blsp 32 _) as [v|]; [|discriminate]. exists v. split; [reflexivity|].
  apply negb_true_iff, Z.eqb_neq in H. exact H.
Qed.
Lemma no_cube t : (t ^ 3) mod p <> 32 mod p.
Proof.
  rewrite <- ctx_p. intros E. destruct cube32 as (v & V & NV). set (q := mc_p ctx_blsp) in *.
  assert (P : prime q) by (unfold q; rewrite ctx_p; exact bls_p_prime).
  assert (Q3 : q - 1 = 3 * ((q - 1) / 3)) by (unfold q; vm_compute; reflexivity).
  assert (Qb : 0 < (q - 1) / 3) by (unfold q; vm_compute; reflexivity).
  assert (N32 : 32 mod q <> 0) by (unfold q; vm_compute; discriminate).
  assert (Nt : t mod q <> 0).
  { intros Z. apply N32. rewrite <- E. change 3 with (1 + 2). rewrite Z.pow_add_r by lia. rewrite Z.pow_1_r, Z.mul_mod, Z, Z.mul_0_l by (unfold q; vm_compute; discriminate). reflexivity. }
  pose proof (fermat q P t Nt) as FM.
  apply (c_powmod_spec _ ctx_blsp_ok) in V. fold q in V. rewrite Z2Pos.id in V by exact Qb. apply NV. rewrite <- V. transitivity (t ^ (q - 1) mod q); [clear FM|exact FM].
  assert (Q0 : 0 < q) by (unfold q; vm_compute; reflexivity).
  clearbody q. rewrite <- (pow_mod_mod 32), <- E, pow_mod_mod by lia. rewrite <- Z.pow_mul_r by lia. rewrite <- Q3. reflexivity.
Qed.
Lemma no_two (P : g2pt) : g2_on P -> g2_mul 2 P = g2_inf -> P = g2_inf.
Proof.
  intros ON H. destruct P as [|x y]; [reflexivity|]. exfalso.
  assert (EY : y = q2 p 0 0).
  { unfold g2_mul in H. rewrite (zmul_double _ _ _ _ _ G2 1) in H by exact ON. rewrite (zmul_1 _ _ _ _ _ G2) in H by exact ON.
    unfold g2_add in H. cbn [Weier.padd] in H.
    destruct (q2_dec x x) as [_|N]; [|congruence].
    destruct (q2_dec y (q2_opp y)) as [E|N]; [|discriminate].
    assert (D : q2_mul (q2_add (q2 p 1 0) (q2 p 1 0)) y = q2 p 0 0) by (transitivity (q2_add y y); [ring|]; rewrite E at 2; ring).
    transitivity (q2_div (q2_mul (q2_add (q2 p 1 0) (q2 p 1 0)) y) (q2_add (q2 p 1 0) (q2 p 1 0))); [field; exact char2_2|]. rewrite D. field. exact char2_2. }
  unfold g2_on in ON. cbn [Weier.on_curve] in ON. rewrite EY in ON.
  assert (X3 : q2_mul (q2_mul x x) x = q2_opp (q2 p 4 4)).
  { transitivity (q2_sub (q2_add (q2_add (q2_mul (q2_mul x x) x) (q2_mul (q2 p 0 0) x)) (q2 p 4 4)) (q2 p 4 4)); [ring|].
    rewrite <- ON. ring. }
  assert (N3 : fp_mul (fp_mul (q2_norm x) (q2_norm x)) (q2_norm x) = fp_of p 32).
  { rewrite <- !norm_mul, X3. unfold q2_norm, q2_opp, q2. cbn [fst snd].
    rewrite <- !fp_of_opp, <- !fp_of_mul, <- fp_of_add. reflexivity. }
  apply (no_cube (fval (q2_norm x))).
  rewrite <- (fp_of_val p (q2_norm x)) in N3 at 1 2 3. rewrite <- !fp_of_mul in N3. apply fp_of_eq in N3.
  replace (fval (q2_norm x) ^ 3) with (fval (q2_norm x) * fval (q2_norm x) * fval (q2_norm x)) by ring. exact N3.
Qed.

(** ** The chain of subgroups *)
Local Transparent bls_p.
Ltac ndvd := let D := fresh in intros D; apply Z.mod_divide in D; [vm_compute in D; discriminate|vm_compute; discriminate].
Notation stg := (stage g2_inf g2_add g2_neg g2_on).
Lemma stg_prime S n m q P : stg S n m -> prime q -> ~ (q | m) -> g2_on P /\ g2_mul q P = g2_inf -> P <> g2_inf ->
  exists S', stg S' (n * q) (m * q).
Proof. intros A B C [D E] F. eexists. exact (stage_prime g2_inf g2_add g2_neg g2_on G2 S n m q P A B C D E F). Qed.
Lemma stg_two S n m q P A : stg S n m -> prime q -> ~ (q | m) -> g2_on P /\ g2_mul q P = g2_inf ->
  g2_on A /\ g2_mul q A = g2_inf -> P <> g2_inf -> (forall k, 0 <= k < q -> A <> g2_mul k P) ->
  exists S', stg S' (n * q * q) (m * q).
Proof. intros X B C [D E] [D' E'] F H. eexists. exact (stage_two g2_inf g2_add g2_neg g2_on G2 S n m q P A X B C D D' E E' F H). Qed.
Definition g2_exp : Z := 1 * 13 * 23 * 2713 * 11953 * 262069 * oP * bls_r.
Lemma last_stage : exists S, stage g2_inf g2_add g2_neg g2_on S (1 * 13 * 13 * 23 * 23 * 2713 * 11953 * 262069 * oP * bls_r) g2_exp.
Proof.
  pose proof (stage_zero g2_inf g2_add g2_neg g2_on G2) as S0.
  assert (N1 : ~ (13 | 1)) by ndvd.
  destruct (stg_two _ _ _ 13 T13 T13b S0 prime_c13 N1 T13_ord T13b_ord ltac:(discriminate) ind13) as (U1 & S1). clear S0 N1.
  assert (N1 : ~ (23 | 1 * 13)) by ndvd.
  destruct (stg_two _ _ _ 23 T23 T23b S1 prime_c23 N1 T23_ord T23b_ord ltac:(discriminate) ind23) as (U2 & S2). clear S1 N1.
  assert (N1 : ~ (2713 | 1 * 13 * 23)) by ndvd.
  destruct (stg_prime _ _ _ 2713 T2713 S2 prime_c2713 N1 T2713_ord ltac:(discriminate)) as (U3 & S3). clear S2 N1.
  assert (N1 : ~ (11953 | 1 * 13 * 23 * 2713)) by ndvd.
  destruct (stg_prime _ _ _ 11953 T11953 S3 prime_c11953 N1 T11953_ord ltac:(discriminate)) as (U4 & S4). clear S3 N1.
  assert (N1 : ~ (262069 | 1 * 13 * 23 * 2713 * 11953)) by ndvd.
  destruct (stg_prime _ _ _ 262069 T262069 S4 prime_c262069 N1 T262069_ord ltac:(discriminate)) as (U5 & S5). clear S4 N1.
  assert (N1 : ~ (oP | 1 * 13 * 23 * 2713 * 11953 * 262069)) by ndvd.
  destruct (stg_prime _ _ _ oP TP S5 oP_prime N1 TP_ord ltac:(discriminate)) as (U6 & S6). clear S5 N1.
  assert (N1 : ~ (bls_r | 1 * 13 * 23 * 2713 * 11953 * 262069 * oP)) by ndvd.
  destruct (stg_prime _ _ _ bls_r g2_gen S6 prime_blsr N1 gen2_in ltac:(discriminate)) as (U7 & S7). clear S6 N1.
  exists U7. exact S7.
Qed.
Lemma big_enough : 2 * p * p + 1 < (1 * 13 * 13 * 23 * 23 * 2713 * 11953 * 262069 * oP * bls_r) * 3.
Proof. vm_compute. reflexivity. Qed.
Local Opaque bls_p bls_r oP g2_exp.
Lemma pt_dec (P Q : g2pt) : {P = Q} + {P <> Q}.
Proof.
  destruct P as [|x y], Q as [|x' y']; [left; reflexivity|right; discriminate|right; discriminate|].
  destruct (q2_dec x x') as [->|N]; [|right; congruence]. destruct (q2_dec y y') as [->|N]; [left; reflexivity|right; congruence].
Qed.
Theorem g2_exponent P : g2_on P -> g2_mul g2_exp P = g2_inf.
Proof.
  destruct last_stage as (S & St).
  exact (stage_exponent g2_inf g2_add g2_neg g2_on G2 S _ _ g2_code _ St code_bound code_inj big_enough no_two pt_dec P).
Qed.
