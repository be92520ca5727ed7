(** The quadratic extension F_p(i), i^2 = -1, of a prime field with p = 3 modulo 4.
    Mathematics only. *)
Require Import ZArith Lia Znumtheory Ring Field.
Require Import Verif.Fp.
Local Open Scope Z_scope.

Definition fp2 (p : Z) : Type := (fp p * fp p)%type.   (* (a, b) is a + b i *)
Section Ops.
Variable p : Z.
Definition q2 (a b : Z) : fp2 p := (fp_of p a, fp_of p b).
Definition q2_add (x y : fp2 p) : fp2 p := (fp_add (fst x) (fst y), fp_add (snd x) (snd y)).
Definition q2_sub (x y : fp2 p) : fp2 p := (fp_sub (fst x) (fst y), fp_sub (snd x) (snd y)).
Definition q2_opp (x : fp2 p) : fp2 p := (fp_opp (fst x), fp_opp (snd x)).
Definition q2_mul (x y : fp2 p) : fp2 p :=
  (fp_sub (fp_mul (fst x) (fst y)) (fp_mul (snd x) (snd y)), fp_add (fp_mul (fst x) (snd y)) (fp_mul (snd x) (fst y))).
Definition q2_norm (x : fp2 p) : fp p := fp_add (fp_mul (fst x) (fst x)) (fp_mul (snd x) (snd x)).
Definition q2_inv (x : fp2 p) : fp2 p :=
  (fp_div (fst x) (q2_norm x), fp_opp (fp_div (snd x) (q2_norm x))).
Definition q2_div (x y : fp2 p) : fp2 p := q2_mul x (q2_inv y).
Definition q2_dec (x y : fp2 p) : {x = y} + {x <> y}.
Proof.
  destruct x as [a b], y as [c d]. destruct (fp_dec a c) as [->|N]; [|right; congruence].
  destruct (fp_dec b d) as [->|N]; [left; reflexivity|right; congruence].
Defined.
End Ops.
Arguments q2_add {p}. Arguments q2_sub {p}. Arguments q2_opp {p}. Arguments q2_mul {p}. Arguments q2_norm {p}.
Arguments q2_inv {p}. Arguments q2_div {p}. Arguments q2_dec {p}.

Section Field.
Variable p : Z.
Hypothesis Hp : prime p.
Hypothesis H34 : p mod 4 = 3.
Lemma p2_gt : 2 < p.
Proof. pose proof (Z.mod_le p 4). destruct Hp. lia. Qed.

(** -1 is not a square *)
Lemma no_i z : (z * z + 1) mod p <> 0.
Proof.
  intros E. pose proof p2_gt as P2.
  assert (Z0 : z mod p <> 0).
  { intros Z0. rewrite <- Z.add_mod_idemp_l, Z.mul_mod, Z0, Z.mul_0_l, (Z.mod_0_l p), Z.add_0_l, Z.mod_1_l in E by lia. discriminate. }
  pose proof (fermat p Hp z Z0) as F.
  pose proof (Z.div_mod p 4 ltac:(lia)) as D. rewrite H34 in D. set (k := p / 4) in *.
  assert (K0 : 0 <= k) by lia.
  assert (K1 : 0 <= 2 * k + 1) by (clear - K0; lia). assert (K2 : 0 < p) by (clear - P2; lia).
  replace (p - 1) with (2 * (2 * k + 1)) in F by (clear - D; lia).
  rewrite Z.pow_mul_r, Z.pow_2_r in F by (clear - K1; lia).
  assert (M : (z * z) mod p = (-1) mod p).
  { replace (z * z) with (-1 + (z * z + 1)) by ring. rewrite <- Z.add_mod_idemp_r, E by lia. reflexivity. }
  rewrite <- pow_mod_mod in F by assumption. rewrite M, pow_mod_mod in F by assumption.
  rewrite Z.pow_add_r, Z.pow_mul_r in F by (clear - K0; lia). change ((-1) ^ 2) with 1 in F. rewrite Z.pow_1_l in F by exact K0.
  change (1 * (-1) ^ 1) with (-1) in F.
  assert (E2 : (-1) mod p = p - 1) by (rewrite <- (Z.mod_add (-1) 1 p) by lia; rewrite Z.mod_small; lia).
  rewrite E2 in F. lia.
Qed.

Lemma Kf2 : field_theory (fp_of p 0) (fp_of p 1) fp_add fp_mul fp_sub fp_opp fp_div fp_inv eq.
Proof. exact (fp_field p Hp). Qed.
Add Field KF2 : Kf2.
Lemma norm_0 (x : fp2 p) : q2_norm x = fp_of p 0 -> x = q2 p 0 0.
Proof.
  destruct x as [a b]. unfold q2_norm. cbn [fst snd]. intros E.
  destruct (fp_dec b (fp_of p 0)) as [->|Nb].
  - unfold q2. destruct (fp_dec a (fp_of p 0)) as [->|Na]; [reflexivity|]. exfalso. apply Na.
    transitivity (fp_div (fp_mul a a) a); [field; exact Na|].
    replace (fp_mul a a) with (fp_add (fp_mul a a) (fp_mul (fp_of p 0) (fp_of p 0))) by ring. rewrite E. field. exact Na.
  - exfalso. apply (no_i (fval (fp_div a b))). apply fp_of_0. rewrite fp_of_add, fp_of_mul, fp_of_val.
    transitivity (fp_div (fp_add (fp_mul a a) (fp_mul b b)) (fp_mul b b)); [field; exact Nb|]. rewrite E. field. exact Nb.
Qed.
Lemma fp2_field : field_theory (q2 p 0 0) (q2 p 1 0) q2_add q2_mul q2_sub q2_opp q2_div q2_inv eq.
Proof.
  constructor.
  - constructor; intros; repeat match goal with x : fp2 p |- _ => destruct x as [? ?] end;
      unfold q2, q2_add, q2_mul, q2_sub, q2_opp; cbn [fst snd]; f_equal; ring.
  - unfold q2. intros E. injection E as E. apply (F_1_neq_0 Kf2). apply fp_eq. exact E.
  - reflexivity.
  - intros x N. assert (Nn : q2_norm x <> fp_of p 0) by (intros E; apply N, norm_0, E).
    destruct x as [a b]. unfold q2_inv, q2_mul, q2, q2_norm in *. cbn [fst snd] in *. f_equal; field; exact Nn.
Qed.
End Field.
