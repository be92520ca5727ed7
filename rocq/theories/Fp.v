(** The prime field Z/p, Fermat's little theorem, square roots for p = 3 mod 4.
    Specification and mathematics only. *)
Require Import ZArith List Lia Znumtheory Permutation Ring Field Eqdep_dec.
Require Import Verif.Base.
Import ListNotations.
Open Scope Z_scope.

(** ** Fermat's little theorem *)

Section Fermat.
Variable p : Z.
Hypothesis Hp : prime p.

Lemma p_gt1 : 1 < p.
Proof. destruct Hp; auto. Qed.

Lemma prime_mul_0 x y : (x * y) mod p = 0 -> x mod p = 0 \/ y mod p = 0.
Proof.
  intros H. pose proof p_gt1. apply Zmod_divide in H; [|lia].
  apply prime_mult in H; auto.
  destruct H as [D|D]; apply Zdivide_mod in D; auto.
Qed.

Lemma prime_mul_ne x y : x mod p <> 0 -> y mod p <> 0 -> (x * y) mod p <> 0.
Proof. intros Hx Hy E. destruct (prime_mul_0 _ _ E); auto. Qed.

Lemma prime_cancel a x y : a mod p <> 0 -> (a * x) mod p = (a * y) mod p -> x mod p = y mod p.
Proof.
  intros Ha E. pose proof p_gt1.
  assert (D : (a * (x - y)) mod p = 0).
  { replace (a * (x - y)) with (a * x - a * y) by ring.
    rewrite Zminus_mod, E, Z.sub_diag. apply Zmod_0_l. }
  destruct (prime_mul_0 _ _ D) as [|D']; [contradiction|].
  apply Zmod_divide in D'; [|lia]. destruct D' as [q Hq].
  replace x with (y + q * p) by lia. apply Z_mod_plus_full.
Qed.

Definition units : list Z := map Z.of_nat (seq 1 (Z.to_nat (p - 1))).

Lemma units_in x : In x units <-> 0 < x < p.
Proof.
  pose proof p_gt1. unfold units. rewrite in_map_iff. split.
  - intros (n & <- & Hn). apply in_seq in Hn. lia.
  - intros Hx. exists (Z.to_nat x). split; [lia|]. apply in_seq. lia.
Qed.

Lemma units_nodup : NoDup units.
Proof.
  apply FinFun.Injective_map_NoDup; [|apply seq_NoDup].
  intros x y E. lia.
Qed.

Definition zprod (l : list Z) : Z := fold_right Z.mul 1 l.

Lemma zprod_perm l l' : Permutation l l' -> zprod l = zprod l'.
Proof.
  unfold zprod. induction 1; cbn [fold_right]; try congruence. ring.
Qed.

Lemma zprod_scale a l :
  (zprod (map (fun x => (a * x) mod p) l)) mod p = (a ^ Z.of_nat (length l) * zprod l) mod p.
Proof.
  pose proof p_gt1. induction l as [|x l IH].
  - reflexivity.
  - cbn [map zprod fold_right length]. fold (zprod l).
    fold (zprod (map (fun x => (a * x) mod p) l)).
    rewrite Zmult_mod_idemp_l. rewrite Z.mul_mod, IH, <- Z.mul_mod by lia.
    rewrite Nat2Z.inj_succ, Z.pow_succ_r by lia. f_equal. ring.
Qed.

Lemma zprod_ne l : (forall x, In x l -> x mod p <> 0) -> zprod l mod p <> 0.
Proof.
  pose proof p_gt1. induction l as [|x l IH]; intros H'; cbn.
  - rewrite Z.mod_small; lia.
  - apply prime_mul_ne; [apply H'; left; auto|apply IH; intros; apply H'; right; auto].
Qed.

Theorem fermat a : a mod p <> 0 -> (a ^ (p - 1)) mod p = 1.
Proof.
  intros Ha. pose proof p_gt1 as H1.
  set (f := fun x => (a * x) mod p).
  assert (Pm : Permutation units (map f units)).
  { apply NoDup_Permutation_bis.
    - exact units_nodup.
    - rewrite map_length. lia.
    - intros y Hy. apply units_in in Hy.
      destruct (mod_inverse_prime a p Hp Ha) as [i Hi].
      apply mod_inverse_some in Hi as [Hi1 Hi2]; [|auto].
      apply in_map_iff. exists ((i * y) mod p). split.
      + unfold f. rewrite Zmult_mod_idemp_r.
        replace (a * (i * y)) with (a * i * y) by ring.
        rewrite Z.mul_mod, Hi2, Z.mul_1_l, Zmod_mod by lia. apply Z.mod_small; lia.
      + apply units_in.
        assert (i mod p <> 0).
        { intros E. rewrite Z.mul_mod, E, Z.mul_0_r, Zmod_0_l in Hi2 by lia. lia. }
        assert (y mod p <> 0) by (rewrite Z.mod_small; lia).
        pose proof (prime_mul_ne i y ltac:(auto) ltac:(auto)).
        pose proof (Z.mod_pos_bound (i * y) p ltac:(lia)). lia. }
  pose proof (zprod_perm _ _ Pm) as E.
  assert (E2 : zprod units mod p = (a ^ (p - 1) * zprod units) mod p).
  { rewrite E at 1. unfold f. rewrite zprod_scale. f_equal. f_equal. f_equal.
    unfold units. rewrite map_length, seq_length. lia. }
  assert (N : zprod units mod p <> 0).
  { apply zprod_ne. intros x Hx. apply units_in in Hx. rewrite Z.mod_small; lia. }
  assert (E3 : 1 mod p = (a ^ (p - 1)) mod p).
  { apply (prime_cancel (zprod units)); [exact N|].
    rewrite Z.mul_1_r, E2. f_equal. ring. }
  rewrite <- E3. apply Z.mod_small; lia.
Qed.

End Fermat.

(** ** The field *)

Record fp (p : Z) : Set := mkfp { fval : Z; fval_ok : (fval mod p =? fval) = true }.
Arguments fval {p}.
Arguments fval_ok {p}.

Lemma fp_of_ok p z : ((z mod p) mod p =? z mod p) = true.
Proof. apply Z.eqb_eq. apply Zmod_mod. Qed.

(** The residue class of an integer. *)
Definition fp_of (p z : Z) : fp p := mkfp p (z mod p) (fp_of_ok p z).

Lemma fp_eq p (x y : fp p) : fval x = fval y -> x = y.
Proof.
  destruct x as [x Hx], y as [y Hy]. cbn. intros ->. f_equal.
  apply UIP_dec. decide equality.
Qed.

Definition fp_dec {p} (x y : fp p) : {x = y} + {x <> y}.
Proof.
  destruct (Z.eq_dec (fval x) (fval y)) as [E|E].
  - left. apply fp_eq, E.
  - right. congruence.
Defined.

Definition fp_add {p} (x y : fp p) : fp p := fp_of p (fval x + fval y).
Definition fp_sub {p} (x y : fp p) : fp p := fp_of p (fval x - fval y).
Definition fp_mul {p} (x y : fp p) : fp p := fp_of p (fval x * fval y).
Definition fp_opp {p} (x : fp p) : fp p := fp_of p (- fval x).
Definition fp_inv {p} (x : fp p) : fp p :=
  match mod_inverse (fval x) p with Some i => fp_of p i | None => fp_of p 0 end.
Definition fp_div {p} (x y : fp p) : fp p := fp_mul x (fp_inv y).

Lemma fval_of p z : fval (fp_of p z) = z mod p.
Proof. reflexivity. Qed.

Lemma fp_of_val p (x : fp p) : fp_of p (fval x) = x.
Proof. apply fp_eq. cbn. apply Z.eqb_eq, fval_ok. Qed.

Lemma fval_bound p (x : fp p) : 0 < p -> 0 <= fval x < p.
Proof.
  intros H. destruct x as [x Hx]. cbn. apply Z.eqb_eq in Hx. rewrite <- Hx.
  apply Z.mod_pos_bound; auto.
Qed.

Lemma fp_of_eq p x y : x mod p = y mod p <-> fp_of p x = fp_of p y.
Proof.
  split; intros H.
  - apply fp_eq. exact H.
  - apply (f_equal fval) in H. exact H.
Qed.

Lemma fp_of_add p x y : fp_of p (x + y) = fp_add (fp_of p x) (fp_of p y).
Proof. apply fp_eq. cbn. apply Zplus_mod. Qed.
Lemma fp_of_sub p x y : fp_of p (x - y) = fp_sub (fp_of p x) (fp_of p y).
Proof. apply fp_eq. cbn. apply Zminus_mod. Qed.
Lemma fp_of_mul p x y : fp_of p (x * y) = fp_mul (fp_of p x) (fp_of p y).
Proof. apply fp_eq. cbn. apply Zmult_mod. Qed.
Lemma fp_of_opp p x : fp_of p (- x) = fp_opp (fp_of p x).
Proof.
  apply fp_eq. cbn. destruct (Z.eq_dec p 0) as [->|H].
  - rewrite !Zmod_0_r. reflexivity.
  - replace (- x) with (0 - x) by ring. replace (- (x mod p)) with (0 - x mod p) by ring.
    rewrite Zminus_mod_idemp_r. reflexivity.
Qed.
Lemma fp_of_mod p x : fp_of p (x mod p) = fp_of p x.
Proof. apply fp_eq. cbn. apply Zmod_mod. Qed.
Lemma fp_of_p p : fp_of p p = fp_of p 0.
Proof. apply fp_of_eq. rewrite Z_mod_same_full. reflexivity. Qed.

Lemma fp_of_0 p x : fp_of p x = fp_of p 0 <-> x mod p = 0.
Proof. rewrite <- fp_of_eq, Zmod_0_l. tauto. Qed.

Section FpField.
Variable p : Z.
Hypothesis Hp : prime p.

Lemma fp_inv_spec (x : fp p) : x <> fp_of p 0 -> fp_mul (fp_inv x) x = fp_of p 1.
Proof.
  intros Hx. pose proof (p_gt1 p Hp).
  assert (Hn : fval x mod p <> 0).
  { intros E. apply Hx. apply fp_eq. rewrite fval_of, Zmod_0_l, <- E.
    symmetry. apply Z.eqb_eq, fval_ok. }
  unfold fp_inv. destruct (mod_inverse_prime _ _ Hp Hn) as [i Hi]. rewrite Hi.
  apply mod_inverse_some in Hi as [_ Hi]; auto.
  apply fp_eq. cbn. rewrite Zmult_mod_idemp_l, Z.mul_comm, Hi.
  symmetry. apply Z.mod_small; lia.
Qed.

Lemma fp_field : field_theory (fp_of p 0) (fp_of p 1) fp_add fp_mul fp_sub fp_opp
                              fp_div fp_inv (@eq (fp p)).
Proof.
  pose proof (p_gt1 p Hp).
  constructor.
  - constructor.
    + intros x. rewrite <- (fp_of_val _ x), <- fp_of_add. reflexivity.
    + intros x y. apply fp_eq. cbn. f_equal. ring.
    + intros x y z. rewrite <- (fp_of_val _ x), <- (fp_of_val _ y), <- (fp_of_val _ z).
      rewrite <- !fp_of_add. f_equal. ring.
    + intros x. rewrite <- (fp_of_val _ x), <- fp_of_mul. f_equal. ring.
    + intros x y. apply fp_eq. cbn. f_equal. ring.
    + intros x y z. rewrite <- (fp_of_val _ x), <- (fp_of_val _ y), <- (fp_of_val _ z).
      rewrite <- !fp_of_mul. f_equal. ring.
    + intros x y z. rewrite <- (fp_of_val _ x), <- (fp_of_val _ y), <- (fp_of_val _ z).
      rewrite <- !fp_of_add, <- !fp_of_mul, <- fp_of_add. f_equal. ring.
    + intros x y. rewrite <- (fp_of_val _ x), <- (fp_of_val _ y).
      rewrite <- fp_of_opp, <- fp_of_sub, <- fp_of_add. f_equal.
    + intros x. rewrite <- (fp_of_val _ x), <- fp_of_opp, <- fp_of_add. f_equal. ring.
  - intros E. apply (f_equal fval) in E. cbn in E. rewrite !Z.mod_small in E; lia.
  - reflexivity.
  - intros x Hx. apply fp_inv_spec, Hx.
Qed.

Lemma fp_of_inverse z i : mod_inverse z p = Some i -> fp_of p i = fp_inv (fp_of p z).
Proof.
  intros H. pose proof (p_gt1 p Hp).
  unfold fp_inv. cbn.
  assert (E : mod_inverse (z mod p) p = mod_inverse z p)
    by (unfold mod_inverse; rewrite Zmod_mod; reflexivity).
  rewrite E, H. reflexivity.
Qed.

(** Characteristic: a small positive integer is non-zero. *)
Lemma fp_of_ne0 z : 0 < z < p -> fp_of p z <> fp_of p 0.
Proof. intros H E. apply fp_of_0 in E. rewrite Z.mod_small in E; lia. Qed.

End FpField.

(** ** Square roots modulo a prime p = 3 mod 4 *)

(** math/big ModSqrt(a, p) for a prime p = 3 mod 4: the root a^((p+1)/4) when a
    is a square; [None] when it is not (ModSqrt then leaves its receiver
    unchanged and returns nil). *)
Definition mod_sqrt34 (a p : Z) : option Z :=
  let c := pow_mod a ((p + 1) / 4) p in
  if (c * c) mod p =? a mod p then Some c else None.

Lemma mod_sqrt34_some a p c : 0 < p -> mod_sqrt34 a p = Some c ->
  0 <= c < p /\ (c * c) mod p = a mod p.
Proof.
  intros Hp. unfold mod_sqrt34. destruct (_ =? _) eqn:E; [|discriminate].
  intros [= <-]. split; [|lia].
  unfold pow_mod. destruct ((p + 1) / 4); try (apply Z.mod_pos_bound; lia).
  rewrite pow_mod_pos_spec by auto. apply Z.mod_pos_bound; lia.
Qed.

Lemma pow_mod_mod b e m : 0 < m -> 0 <= e -> ((b mod m) ^ e) mod m = (b ^ e) mod m.
Proof.
  intros Hm He. revert e He. apply natlike_ind.
  - reflexivity.
  - intros e He IH. rewrite !Z.pow_succ_r by auto.
    rewrite Zmult_mod_idemp_l, Zmult_mod, IH, <- Zmult_mod. reflexivity.
Qed.

Lemma mod_sqrt34_complete a p b : prime p -> p mod 4 = 3 -> (b * b) mod p = a mod p ->
  exists c, mod_sqrt34 a p = Some c.
Proof.
  intros Hp H4 Hb. pose proof (p_gt1 p Hp).
  unfold mod_sqrt34.
  assert (E : (pow_mod a ((p + 1) / 4) p * pow_mod a ((p + 1) / 4) p) mod p = a mod p).
  { rewrite pow_mod_spec by lia. rewrite <- Zmult_mod, <- Z.pow_add_r by lia.
    rewrite <- (pow_mod_mod a) by lia. rewrite <- Hb.
    rewrite pow_mod_mod by lia.
    replace (b * b) with (b ^ 2) by ring. rewrite <- Z.pow_mul_r by lia.
    replace (2 * ((p + 1) / 4 + (p + 1) / 4)) with ((p - 1) + 2) by lia.
    rewrite Z.pow_add_r by lia.
    destruct (Z.eq_dec (b mod p) 0) as [E0|E0].
    - rewrite Zmult_mod. rewrite <- (pow_mod_mod b 2), E0 by lia.
      change (0 ^ 2) with 0. rewrite Zmod_0_l, Z.mul_0_r. reflexivity.
    - rewrite Zmult_mod, fermat, Z.mul_1_l, Zmod_mod by auto. reflexivity. }
  rewrite E, Z.eqb_refl. eauto.
Qed.

(** Push [fp_of] through integer arithmetic. *)
#[global] Hint Rewrite fp_of_add fp_of_sub fp_of_mul fp_of_opp fp_of_mod : fpz.
