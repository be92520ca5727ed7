(** Integer multiples in an abelian group given by an addition on the elements
    of a type that satisfy a predicate [ok].  Specification only. *)
Require Import ZArith Lia.

Section Mult.
Variable T : Type.
Variable zero : T.
Variable add : T -> T -> T.
Variable neg : T -> T.

(** [zmul k P] is P added to itself k times, and -(|k| P) for negative k. *)
Definition zmul (k : Z) (P : T) : T :=
  match k with
  | Z0 => zero
  | Zpos n => Pos.iter (add P) zero n
  | Zneg n => neg (Pos.iter (add P) zero n)
  end.

Variable ok : T -> Prop.

Record is_group : Prop := {
  g_zero : ok zero;
  g_add : forall P Q, ok P -> ok Q -> ok (add P Q);
  g_neg : forall P, ok P -> ok (neg P);
  g_assoc : forall P Q R, ok P -> ok Q -> ok R -> add P (add Q R) = add (add P Q) R;
  g_comm : forall P Q, ok P -> ok Q -> add P Q = add Q P;
  g_0_l : forall P, ok P -> add zero P = P;
  g_inv : forall P, ok P -> add P (neg P) = zero }.

Hypothesis HG : is_group.

Lemma gadd_0_r P : ok P -> add P zero = P.
Proof. intros H. rewrite (g_comm HG); auto using (g_zero HG). apply (g_0_l HG); auto. Qed.

Lemma gneg_l P : ok P -> add (neg P) P = zero.
Proof.
  intros H. rewrite (g_comm HG); auto using (g_neg HG). apply (g_inv HG); auto.
Qed.

Lemma gcancel P Q R : ok P -> ok Q -> ok R -> add P Q = add P R -> Q = R.
Proof.
  intros HP HQ HR E.
  rewrite <- (g_0_l HG Q), <- (g_0_l HG R), <- (gneg_l P) by assumption.
  rewrite <- !(g_assoc HG) by (auto using (g_neg HG)). rewrite E. reflexivity.
Qed.

Lemma gneg_unique P Q : ok P -> ok Q -> add P Q = zero -> Q = neg P.
Proof.
  intros HP HQ E. apply (gcancel P); auto using (g_neg HG).
  rewrite (g_inv HG); auto.
Qed.

Lemma gneg_zero : neg zero = zero.
Proof.
  symmetry. apply gneg_unique; auto using (g_zero HG). apply (g_0_l HG), (g_zero HG).
Qed.

Lemma gneg_neg P : ok P -> neg (neg P) = P.
Proof.
  intros H. symmetry. apply gneg_unique; auto using (g_neg HG). apply gneg_l; auto.
Qed.

Lemma gadd_swap P Q R : ok P -> ok Q -> ok R -> add P (add Q R) = add Q (add P R).
Proof.
  intros. rewrite !(g_assoc HG) by assumption. f_equal. apply (g_comm HG); auto.
Qed.

Lemma gneg_add P Q : ok P -> ok Q -> neg (add P Q) = add (neg P) (neg Q).
Proof.
  intros HP HQ. symmetry.
  pose proof (g_neg HG _ HP). pose proof (g_neg HG _ HQ).
  apply gneg_unique; auto using (g_add HG).
  rewrite <- (g_assoc HG) by (auto using (g_add HG)).
  rewrite (gadd_swap Q) by auto.
  rewrite (g_inv HG Q) by auto. rewrite gadd_0_r by auto. apply (g_inv HG); auto.
Qed.

Lemma piter_ok P n : ok P -> ok (Pos.iter (add P) zero n).
Proof.
  intros H. apply Pos.iter_invariant; [intros x Hx; apply (g_add HG); auto | apply (g_zero HG)].
Qed.

Lemma zmul_ok k P : ok P -> ok (zmul k P).
Proof.
  intros H. destruct k; cbn; auto using (g_zero HG), (g_neg HG), piter_ok.
Qed.

Lemma zmul_0 P : zmul 0 P = zero.
Proof. reflexivity. Qed.

Lemma zmul_1 P : ok P -> zmul 1 P = P.
Proof. intros H. cbn. apply gadd_0_r; auto. Qed.

Lemma zmul_neg k P : ok P -> zmul (- k) P = neg (zmul k P).
Proof.
  intros H. destruct k; cbn; auto using gneg_zero.
  rewrite gneg_neg; auto using piter_ok.
Qed.

Lemma zmul_succ k P : ok P -> zmul (k + 1) P = add P (zmul k P).
Proof.
  intros H. destruct k as [|n|n].
  - cbn. reflexivity.
  - cbn [zmul Z.add]. rewrite Pos.add_1_r, Pos.iter_succ. reflexivity.
  - destruct (Pos.eq_dec n 1) as [->|Hn].
    + cbn. rewrite gadd_0_r by auto. rewrite (g_inv HG); auto.
    + assert (E : (Z.neg n + 1 = Z.neg (Pos.pred n))%Z) by lia.
      rewrite E. cbn [zmul].
      rewrite <- (Pos.succ_pred n Hn) at 2. rewrite Pos.iter_succ.
      rewrite gneg_add by (auto using piter_ok).
      rewrite (g_assoc HG) by (auto using piter_ok, (g_neg HG)).
      rewrite (g_inv HG), (g_0_l HG); auto using piter_ok, (g_neg HG).
Qed.

Lemma zmul_pred k P : ok P -> zmul (k - 1) P = add (neg P) (zmul k P).
Proof.
  intros H. replace k with (k - 1 + 1)%Z at 2 by lia.
  rewrite zmul_succ by auto.
  rewrite (g_assoc HG) by (auto using (g_neg HG), zmul_ok).
  rewrite gneg_l, (g_0_l HG); auto using zmul_ok.
Qed.

Lemma zmul_add j k P : ok P -> zmul (j + k) P = add (zmul j P) (zmul k P).
Proof.
  intros H. revert j. apply Z.bi_induction.
  - intros x y ->. tauto.
  - cbn [Z.add]. rewrite zmul_0, (g_0_l HG); auto using zmul_ok.
  - intros j. rewrite <- Z.add_1_r. split; intros E.
    + replace (j + 1 + k)%Z with (j + k + 1)%Z by lia.
      rewrite !zmul_succ, E by auto. apply (g_assoc HG); auto using zmul_ok.
    + replace (j + k)%Z with (j + 1 + k - 1)%Z by lia.
      rewrite zmul_pred, E by auto. rewrite zmul_succ by auto.
      rewrite !(g_assoc HG) by (auto using zmul_ok, (g_neg HG), (g_add HG)).
      rewrite gneg_l, (g_0_l HG); auto using zmul_ok.
Qed.

Lemma zmul_sub j k P : ok P -> zmul (j - k) P = add (zmul j P) (neg (zmul k P)).
Proof.
  intros H. rewrite <- zmul_neg by auto. rewrite <- zmul_add by auto. reflexivity.
Qed.

Lemma zmul_zero k : zmul k zero = zero.
Proof.
  assert (Z0 := g_zero HG).
  assert (E : forall n, Pos.iter (add zero) zero n = zero).
  { intros n. apply (Pos.iter_invariant n T (add zero) (fun x => x = zero)); auto.
    intros x ->. apply (g_0_l HG); auto. }
  destruct k; cbn; rewrite ?E; auto using gneg_zero.
Qed.

Lemma zmul_mul j k P : ok P -> zmul (j * k) P = zmul j (zmul k P).
Proof.
  intros H. revert j. apply Z.bi_induction.
  - intros x y ->. tauto.
  - reflexivity.
  - intros j. rewrite <- Z.add_1_r. split; intros E.
    + replace ((j + 1) * k)%Z with (k + j * k)%Z by lia.
      rewrite zmul_add, E, zmul_succ by (auto using zmul_ok). reflexivity.
    + replace (j * k)%Z with (-k + (j + 1) * k)%Z by lia.
      rewrite zmul_add, E, zmul_succ by (auto using zmul_ok).
      rewrite zmul_neg by auto.
      rewrite (g_assoc HG) by (auto using zmul_ok, (g_neg HG)).
      rewrite gneg_l, (g_0_l HG); auto using zmul_ok.
Qed.

Lemma zmul_padd k P Q : ok P -> ok Q -> zmul k (add P Q) = add (zmul k P) (zmul k Q).
Proof.
  intros HP HQ. assert (HPQ := g_add HG _ _ HP HQ).
  revert k. apply Z.bi_induction.
  - intros x y ->. tauto.
  - cbn. rewrite (g_0_l HG); auto using (g_zero HG).
  - intros j. rewrite <- Z.add_1_r.
    assert (S : zmul (j + 1) (add P Q) = add (add P Q) (zmul j (add P Q)))
      by (apply zmul_succ; auto).
    assert (S2 : add (zmul (j + 1) P) (zmul (j + 1) Q)
                 = add (add P Q) (add (zmul j P) (zmul j Q))).
    { rewrite !zmul_succ by auto.
      rewrite <- !(g_assoc HG) by (auto using zmul_ok, (g_add HG)).
      f_equal. apply gadd_swap; auto using zmul_ok. }
    rewrite S, S2. split; intros E.
    + rewrite E. reflexivity.
    + apply (gcancel (add P Q)); auto using zmul_ok, (g_add HG).
Qed.

Lemma zmul_negp k P : ok P -> zmul k (neg P) = neg (zmul k P).
Proof.
  intros H.
  assert (E1 : neg P = zmul (-1) P) by (cbn; rewrite gadd_0_r; auto).
  rewrite E1, <- zmul_mul by auto. rewrite Z.mul_comm, zmul_mul by auto.
  replace (-1)%Z with (- (1))%Z by reflexivity.
  rewrite zmul_neg by (auto using zmul_ok). rewrite zmul_1; auto using zmul_ok.
Qed.

Lemma zmul_double k P : ok P -> zmul (2 * k) P = add (zmul k P) (zmul k P).
Proof. intros H. replace (2 * k)%Z with (k + k)%Z by lia. apply zmul_add; auto. Qed.

Lemma zmul_mod n k P : ok P -> zmul n P = zero -> zmul (k mod n) P = zmul k P.
Proof.
  intros H E. destruct (Z.eq_dec n 0) as [->|Hn].
  - rewrite Zmod_0_r. reflexivity.
  - rewrite (Z.div_mod k n) at 2 by auto.
    rewrite zmul_add by auto. rewrite (Z.mul_comm n), zmul_mul, E, zmul_zero by auto.
    rewrite (g_0_l HG); auto using zmul_ok.
Qed.

Lemma zmul_congr n j k P : ok P -> zmul n P = zero ->
  (j mod n = k mod n)%Z -> zmul j P = zmul k P.
Proof.
  intros H E M. rewrite <- (zmul_mod n j), <- (zmul_mod n k) by auto. f_equal. exact M.
Qed.

(** In a group element of prime order n, [k]P = 0 exactly when n | k. *)
Lemma zmul_order n k P : ok P -> Znumtheory.prime n -> zmul n P = zero -> P <> zero ->
  zmul k P = zero -> (k mod n = 0)%Z.
Proof.
  intros H Hp E Hnz Ek.
  destruct (Z.eq_dec (k mod n) 0) as [|Hk]; [assumption|exfalso].
  assert (Hn : (1 < n)%Z) by (destruct Hp; auto).
  assert (R : Znumtheory.rel_prime k n).
  { apply Znumtheory.rel_prime_sym, Znumtheory.prime_rel_prime; auto.
    intros D. apply Hk. apply Znumtheory.Zdivide_mod; auto. }
  apply Znumtheory.rel_prime_bezout in R. destruct R as [u v HB].
  apply Hnz. rewrite <- (zmul_1 P H), <- HB.
  rewrite zmul_add, !zmul_mul, E, Ek, !zmul_zero by auto.
  apply (g_0_l HG), (g_zero HG).
Qed.

Lemma zmul_inj n j k P : ok P -> Znumtheory.prime n -> zmul n P = zero -> P <> zero ->
  zmul j P = zmul k P -> (j mod n = k mod n)%Z.
Proof.
  intros H Hp E Hnz Ek.
  assert (Hn : (1 < n)%Z) by (destruct Hp; auto).
  assert (D : ((j - k) mod n = 0)%Z).
  { apply (zmul_order n _ P); auto. rewrite zmul_sub by auto.
    rewrite Ek. apply (g_inv HG), zmul_ok; auto. }
  apply Znumtheory.Zmod_divide in D; [|lia].
  destruct D as [q Hq]. replace j with (k + q * n)%Z by lia.
  apply Z_mod_plus_full.
Qed.

End Mult.

Arguments zmul {T}.
