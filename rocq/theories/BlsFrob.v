(** Powers in a field of prime characteristic: (x + y)^p = x^p + y^p, and square
    roots in F_p(i) by the method of RFC 9380.  Mathematics only. *)
From Coq Require Import ZArith List Lia Znumtheory Ring Field.
From Verif Require Import Fp BlsFp2.
Local Open Scope Z_scope.

Section Frob.
Variable K : Type.
Variables (k0 k1 : K) (kadd kmul ksub : K -> K -> K) (kopp : K -> K)
          (kdiv : K -> K -> K) (kinv : K -> K).
Variable Kfield : field_theory k0 k1 kadd kmul ksub kopp kdiv kinv (@eq K).
Variable Kdec : forall x y : K, {x = y} + {x <> y}.
Add Field KFB : Kfield.
Declare Scope B_scope.
Delimit Scope B_scope with B.
Local Open Scope B_scope.
Notation "0" := k0 : B_scope.
Notation "1" := k1 : B_scope.
Infix "+" := kadd : B_scope.
Infix "*" := kmul : B_scope.
Infix "-" := ksub : B_scope.
Infix "/" := kdiv : B_scope.

Fixpoint pw (x : K) (n : nat) : K := match n with O => 1 | S m => x * pw x m end.
Lemma pw_add x m n : pw x (m + n) = pw x m * pw x n.
Proof. induction m as [|m IH]; cbn [pw Nat.add]; [ring|rewrite IH; ring]. Qed.
Lemma pw_mul x m n : pw x (m * n) = pw (pw x m) n.
Proof.
  rewrite Nat.mul_comm. induction n as [|n IH]; cbn [pw Nat.mul]; [reflexivity|]. rewrite pw_add, IH. reflexivity.
Qed.
Lemma pw_base x y n : pw (x * y) n = pw x n * pw y n.
Proof. induction n as [|n IH]; cbn [pw]; [ring|rewrite IH; ring]. Qed.
Lemma pw_1 n : pw 1 n = 1.
Proof. induction n as [|n IH]; cbn [pw]; [reflexivity|rewrite IH; ring]. Qed.
Lemma pw_0 n : n <> O -> pw 0 n = 0.
Proof. destruct n; [congruence|]. intros _. cbn [pw]. ring. Qed.
Lemma k_int x y : x * y = 0 -> x = 0 \/ y = 0.
Proof.
  intros E. destruct (Kdec x 0) as [|N]; [auto|right]. transitivity (x * y / x); [field; exact N|]. rewrite E. field. exact N.
Qed.

Fixpoint nK (n : nat) : K := match n with O => 0 | S m => nK m + 1 end.
Fixpoint bk (n k : nat) : K :=
  match k, n with
  | O, _ => 1
  | S _, O => 0
  | S k', S n' => bk n' k' + bk n' k
  end.
Lemma bk_0 n : bk n O = 1. Proof. destruct n; reflexivity. Qed.
Lemma bk_S n k : bk (S n) (S k) = bk n k + bk n (S k). Proof. reflexivity. Qed.
Lemma bk_big n : forall k, (n < k)%nat -> bk n k = 0.
Proof.
  induction n as [|n IH]; intros [|k] H; try lia; [reflexivity|]. rewrite bk_S, !IH by lia. ring.
Qed.
Lemma bk_diag n : bk n n = 1.
Proof. induction n as [|n IH]; [reflexivity|]. rewrite bk_S, IH, (bk_big n (S n)) by lia. ring. Qed.
Lemma absorb n : forall k, nK (S k) * bk (S n) (S k) = nK (S n) * bk n k.
Proof.
  induction n as [|n IH]; intros k.
  - destruct k as [|k]; cbn [nK bk]; ring.
  - rewrite bk_S. destruct k as [|k].
    + rewrite !bk_0. pose proof (IH O) as H. rewrite bk_0 in H.
      change (nK (S (S n))) with (nK (S n) + 1). transitivity (nK 1 * 1 + nK 1 * bk (S n) 1); [ring|]. rewrite H. cbn [nK]. ring.
    + pose proof (IH k) as H1. pose proof (IH (S k)) as H2.
      change (nK (S (S n))) with (nK (S n) + 1).
      transitivity (nK (S (S k)) * bk (S n) (S k) + nK (S (S k)) * bk (S n) (S (S k))); [ring|]. rewrite H2.
      change (nK (S (S k))) with (nK (S k) + 1).
      transitivity (nK (S k) * bk (S n) (S k) + bk (S n) (S k) + nK (S n) * bk n (S k)); [ring|]. rewrite H1.
      rewrite (bk_S n k). ring.
Qed.
Fixpoint sm (f : nat -> K) (n : nat) : K := match n with O => f O | S m => sm f m + f n end.
Lemma sm_ext f g n : (forall k, (k <= n)%nat -> f k = g k) -> sm f n = sm g n.
Proof. induction n as [|n IH]; intros H; cbn [sm]; [apply H; lia|]. rewrite IH, H by auto with arith. reflexivity. Qed.
Lemma sm_add f g n : sm (fun k => f k + g k) n = sm f n + sm g n.
Proof. induction n as [|n IH]; cbn [sm]; [reflexivity|rewrite IH; ring]. Qed.
Lemma sm_mul c f n : sm (fun k => c * f k) n = c * sm f n.
Proof. induction n as [|n IH]; cbn [sm]; [reflexivity|rewrite IH; ring]. Qed.
Lemma sm_shift f n : sm f (S n) = f O + sm (fun k => f (S k)) n.
Proof. induction n as [|n IH]; [reflexivity|]. change (sm f (S (S n))) with (sm f (S n) + f (S (S n))). rewrite IH. cbn [sm]. ring. Qed.
Lemma sm_0 n : sm (fun _ => 0) n = 0.
Proof. induction n as [|n IH]; cbn [sm]; [reflexivity|rewrite IH; ring]. Qed.
Lemma binom x n : pw (x + 1) n = sm (fun k => bk n k * pw x k) n.
Proof.
  induction n as [|n IH]; [cbn; ring|].
  rewrite sm_shift, bk_0. cbn [pw].
  rewrite (sm_ext _ (fun k => x * (bk n k * pw x k) + bk n (S k) * pw x (S k))) by (intros k _; rewrite bk_S; cbn [pw]; ring).
  rewrite sm_add, sm_mul, <- IH.
  pose proof (sm_shift (fun k => bk n k * pw x k) n) as S1. cbn [sm] in S1.
  rewrite (bk_big n (S n)), bk_0 in S1 by lia. rewrite <- IH in S1. cbn [pw] in S1.
  transitivity (x * pw (x + 1) n + (pw (x + 1) n + 0 * (x * pw x n))); [ring|]. rewrite S1. cbn [pw]. ring.
Qed.

Variable n : nat.
Hypothesis n2 : (2 <= n)%nat.
Hypothesis n_0 : nK n = 0.
Hypothesis n_min : forall k, (0 < k < n)%nat -> nK k <> 0.
Lemma bk_mid k : (0 < k < n)%nat -> bk n k = 0.
Proof using Kfield Kdec n2 n_0 n_min.
  intros H. destruct k as [|k]; [lia|]. destruct n as [|m]; [lia|].
  pose proof (absorb m k) as A. rewrite n_0 in A.
  destruct (k_int (nK (S k)) (bk (S m) (S k))) as [E|E]; [rewrite A; ring| |exact E]. exfalso. exact (n_min (S k) H E).
Qed.
Lemma frob_1 x : pw (x + 1) n = pw x n + 1.
Proof using Kfield Kdec n2 n_0 n_min.
  rewrite binom. pose proof bk_mid as BM. destruct n as [|m]; [lia|]. cbn [sm]. rewrite bk_diag. destruct m as [|m]; [lia|].
  rewrite sm_shift, bk_0.
  rewrite (sm_ext _ (fun _ => 0)), sm_0; [cbn [pw]; ring|]. intros k Hk. rewrite BM by lia. ring.
Qed.
Theorem frob x y : pw (x + y) n = pw x n + pw y n.
Proof using Kfield Kdec n2 n_0 n_min.
  destruct (Kdec y 0) as [->|N].
  - rewrite pw_0 by lia. transitivity (pw x n); [|ring]. f_equal. ring.
  - replace (x + y) with ((x / y + 1) * y) by (field; exact N). rewrite pw_base, frob_1.
    transitivity (pw (x / y) n * pw y n + pw y n); [ring|]. rewrite <- pw_base. do 2 f_equal. field. exact N.
Qed.
End Frob.

(** ** Square roots in F_p(i) *)
Section Sqrt.
Variable p : Z.
Hypothesis Hp : prime p.
Hypothesis H34 : p mod 4 = 3.
Notation K := (fp2 p).
Notation pw2 := (pw K (q2 p 1 0) q2_mul).
Notation pw1 := (pw (fp p) (fp_of p 1) fp_mul).
Lemma Kq2 : field_theory (q2 p 0 0) (q2 p 1 0) q2_add q2_mul q2_sub q2_opp q2_div q2_inv eq.
Proof. exact (fp2_field p Hp H34). Qed.
Add Field KFQ : Kq2.
Lemma Kq1 : field_theory (fp_of p 0) (fp_of p 1) fp_add fp_mul fp_sub fp_opp fp_div fp_inv eq.
Proof. exact (fp_field p Hp). Qed.
Add Field KFQ1 : Kq1.
Lemma nK1 n : nK K (q2 p 0 0) (q2 p 1 0) q2_add n = q2 p (Z.of_nat n) 0.
Proof.
  induction n as [|n IH]; [reflexivity|]. cbn [nK]. rewrite IH, Nat2Z.inj_succ. unfold q2, q2_add. cbn [fst snd].
  rewrite <- !fp_of_add. f_equal.
Qed.
Lemma pn : Z.of_nat (Z.to_nat p) = p. Proof. apply Z2Nat.id. destruct Hp. lia. Qed.
Lemma frob2 x y : pw2 (q2_add x y) (Z.to_nat p) = q2_add (pw2 x (Z.to_nat p)) (pw2 y (Z.to_nat p)).
Proof.
  pose proof (p2_gt p Hp H34) as P2.
  apply (frob K _ _ _ _ _ _ _ _ Kq2 q2_dec).
  - lia.
  - rewrite nK1, pn. unfold q2. rewrite fp_of_p. reflexivity.
  - intros k Hk. rewrite nK1. intros E. injection E as E. rewrite Z.mod_0_l in E by lia.
    rewrite Z.mod_small in E by lia. lia.
Qed.
Lemma pw1_val a n : pw1 (fp_of p a) n = fp_of p (a ^ Z.of_nat n).
Proof.
  induction n as [|n IH]; [reflexivity|]. cbn [pw]. rewrite IH, <- fp_of_mul, Nat2Z.inj_succ, Z.pow_succ_r by lia. reflexivity.
Qed.
Lemma fermat1 (a : fp p) : pw1 a (Z.to_nat p) = a.
Proof.
  pose proof (p2_gt p Hp H34) as P2.
  rewrite <- (fp_of_val p a), pw1_val, pn. destruct (Z.eq_dec (fval a mod p) 0) as [E|N].
  - transitivity (fp_of p 0); [|symmetry; apply fp_of_0; exact E]. apply fp_of_eq. rewrite <- pow_mod_mod, E, Z.pow_0_l by lia. reflexivity.
  - apply fp_of_eq. assert (E : fval a ^ p = fval a * fval a ^ (p - 1)) by (rewrite <- Z.pow_succ_r by lia; f_equal; lia).
    rewrite E, <- Z.mul_mod_idemp_r by lia.
    rewrite (fermat p Hp _ N), Z.mul_1_r. reflexivity.
Qed.
Definition emb (a : fp p) : K := (a, fp_of p 0).
Definition ii : K := q2 p 0 1.
Lemma emb_pw a n : pw2 (emb a) n = emb (pw1 a n).
Proof.
  induction n as [|n IH]; [reflexivity|]. cbn [pw]. rewrite IH. unfold emb, q2_mul. cbn [fst snd]. f_equal; ring.
Qed.
Lemma split2 (x : K) : x = q2_add (emb (fst x)) (q2_mul (emb (snd x)) ii).
Proof. destruct x as [a b]. unfold emb, ii, q2, q2_add, q2_mul. cbn [fst snd]. f_equal; ring. Qed.
Lemma ii_2 : q2_mul ii ii = q2_opp (q2 p 1 0).
Proof. unfold ii, q2, q2_mul, q2_opp. cbn [fst snd]. f_equal; ring. Qed.
Notation frb x := (pw2 x (Z.to_nat p)).
Lemma frb_ii : frb ii = q2_opp ii.
Proof.
  pose proof (p2_gt p Hp H34) as P2. pose proof (Z.div_mod p 4 ltac:(lia)) as D. rewrite H34 in D.
  assert (0 <= p / 4) by (apply Z.div_pos; lia).
  replace (Z.to_nat p) with (3 + 4 * Z.to_nat (p / 4))%nat by lia.
  rewrite (pw_add K _ _ _ _ _ _ _ _ Kq2), (pw_mul K _ _ _ _ _ _ _ _ Kq2). cbn [pw].
  assert (E4 : q2_mul ii (q2_mul ii (q2_mul ii (q2_mul ii (q2 p 1 0)))) = q2 p 1 0).
  { transitivity (q2_mul (q2_mul ii ii) (q2_mul ii ii)); [ring|]. rewrite ii_2. ring. }
  rewrite E4, (pw_1 K _ _ _ _ _ _ _ _ Kq2). transitivity (q2_mul (q2_mul ii ii) ii); [ring|]. rewrite ii_2. ring.
Qed.
(** the p-th power is conjugation *)
Lemma frb_conj (x : K) : frb x = (fst x, fp_opp (snd x)).
Proof.
  rewrite (split2 x) at 1. rewrite frob2, (pw_base K _ _ _ _ _ _ _ _ Kq2), !emb_pw, !fermat1, frb_ii.
  unfold emb, ii, q2, q2_opp, q2_mul, q2_add. cbn [fst snd]. f_equal; ring.
Qed.
Lemma frb2 (x : K) : frb (frb x) = x.
Proof. rewrite !frb_conj. destruct x as [a b]. cbn [fst snd]. f_equal. ring. Qed.
(** the square root algorithm, on field elements *)
Definition e34 : nat := Z.to_nat ((p - 3) / 4).
Definition e12 : nat := Z.to_nat ((p - 1) / 2).
Lemma exps : (2 * e34 + 1)%nat = e12 /\ (2 * e12 + 1)%nat = Z.to_nat p.
Proof.
  pose proof (p2_gt p Hp H34) as P2. pose proof (Z.div_mod p 4 ltac:(lia)) as D. rewrite H34 in D. unfold e34, e12.
  assert (0 <= p / 4) by (apply Z.div_pos; lia).
  assert (E1 : (p - 3) / 4 = p / 4) by (symmetry; apply (Z.div_unique _ _ _ 0); lia).
  assert (E2 : (p - 1) / 2 = 2 * (p / 4) + 1) by (symmetry; apply (Z.div_unique _ _ _ 0); lia).
  rewrite E1, E2. lia.
Qed.
Definition s_a1 (a : K) : K := pw2 a e34.
Definition s_alpha (a : K) : K := q2_mul (q2_mul (s_a1 a) (s_a1 a)) a.
Definition s_x0 (a : K) : K := q2_mul (s_a1 a) a.
Lemma sqrt_i (a : K) : s_alpha a = q2_opp (q2 p 1 0) -> q2_mul (q2_mul ii (s_x0 a)) (q2_mul ii (s_x0 a)) = a.
Proof.
  intros E. transitivity (q2_mul (q2_mul ii ii) (q2_mul (s_alpha a) a)); [unfold s_alpha, s_x0; ring|]. rewrite E, ii_2. ring.
Qed.
Lemma sqrt_c (a s : K) : q2_mul s s = a -> s_alpha a <> q2_opp (q2 p 1 0) ->
  let c := q2_mul (pw2 (q2_add (s_alpha a) (q2 p 1 0)) e12) (s_x0 a) in q2_mul c c = a.
Proof.
  intros Es N c. destruct exps as [X1 X2].
  destruct (q2_dec a (q2 p 0 0)) as [->|Na].
  { unfold c, s_x0. ring. }
  assert (Ns : s <> q2 p 0 0) by (intros ->; apply Na; rewrite <- Es; ring).
  assert (A1 : s_alpha a = pw2 a e12).
  { rewrite <- X1, (pw_add K _ _ _ _ _ _ _ _ Kq2). replace (2 * e34)%nat with (e34 + e34)%nat by lia.
    rewrite (pw_add K _ _ _ _ _ _ _ _ Kq2). unfold s_alpha, s_a1. cbn [pw]. ring. }
  assert (A2 : q2_mul (s_alpha a) s = frb s).
  { rewrite A1, <- X2, <- Es, (pw_base K _ _ _ _ _ _ _ _ Kq2), (pw_add K _ _ _ _ _ _ _ _ Kq2).
    replace (2 * e12)%nat with (e12 + e12)%nat by lia. rewrite (pw_add K _ _ _ _ _ _ _ _ Kq2). cbn [pw]. ring. }
  assert (A3 : q2_mul (frb (s_alpha a)) (frb s) = s).
  { rewrite <- (pw_base K _ _ _ _ _ _ _ _ Kq2), A2. apply frb2. }
  assert (Nf : frb s <> q2 p 0 0).
  { intros Z0. rewrite Z0 in A3. apply Ns. rewrite <- A3. ring. }
  assert (A4 : q2_mul (s_alpha a) (frb (s_alpha a)) = q2 p 1 0).
  { set (f := frb (s_alpha a)) in *. set (t := frb s) in *. clearbody f t.
    transitivity (q2_div (q2_mul (q2_mul (s_alpha a) s) (q2_mul f t)) (q2_mul s t)); [field; split; assumption|].
    rewrite A2, A3. field. split; assumption. }
  set (b := q2_add (s_alpha a) (q2 p 1 0)) in *.
  assert (Nb : b <> q2 p 0 0).
  { intros Z0. apply N. unfold b in Z0. transitivity (q2_sub (q2_add (s_alpha a) (q2 p 1 0)) (q2 p 1 0)); [ring|]. rewrite Z0. ring. }
  assert (A5 : q2_mul (q2_mul (pw2 b e12) (pw2 b e12)) b = q2_add (frb (s_alpha a)) (q2 p 1 0)).
  { transitivity (frb b).
    - rewrite <- X2, (pw_add K _ _ _ _ _ _ _ _ Kq2). replace (2 * e12)%nat with (e12 + e12)%nat by lia. rewrite (pw_add K _ _ _ _ _ _ _ _ Kq2). cbn [pw]. ring.
    - unfold b. rewrite frob2, (pw_1 K _ _ _ _ _ _ _ _ Kq2). reflexivity. }
  assert (A6 : q2_mul (q2_mul c c) b = q2_mul a b).
  { transitivity (q2_mul (q2_mul (q2_mul (pw2 b e12) (pw2 b e12)) b) (q2_mul (s_alpha a) a)); [unfold c, s_x0, s_alpha; ring|].
    rewrite A5. transitivity (q2_mul (q2_add (q2_mul (s_alpha a) (frb (s_alpha a))) (s_alpha a)) a); [ring|]. rewrite A4. unfold b. ring. }
  clearbody b c. transitivity (q2_div (q2_mul (q2_mul c c) b) b); [field; exact Nb|]. rewrite A6. field. exact Nb.
Qed.
End Sqrt.
