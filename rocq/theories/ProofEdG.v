(** The group functions of edwards25519.go: limb vectors as field elements,
    inversion, the point representations, addition and doubling. *)
Require Import ZArith List Lia Bool Znumtheory Field.
Require Import Verif.Base Verif.Words Verif.Fp Verif.Group Verif.Edw Verif.SpecEd Verif.EdCurve Verif.ModelSlp Verif.ModelEdCode Verif.ModelEd Verif.ProofSlp Verif.ProofEdF.
Import ListNotations.
Open Scope Z_scope.

Lemma Kf25' : field_theory (fz 0) (fz 1) fp_add fp_mul fp_sub fp_opp fp_div fp_inv (@eq F25).
Proof. exact Kf25. Qed.
Add Field KF25' : Kf25'.
Declare Scope F25_scope.
Delimit Scope F25_scope with F.
Infix "+" := fp_add : F25_scope.
Infix "*" := fp_mul : F25_scope.
Infix "-" := fp_sub : F25_scope.
Infix "/" := fp_div : F25_scope.
Notation "- x" := (fp_opp x) : F25_scope.

Global Opaque FeAdd FeSub FeMul FeSquare FeSquare2 FeNeg FeToBytes FeIsNegative FeIsNonZero FeFromBytes FeCMove fev lv.

(** the limb vector f is within level c and stands for x *)
Definition rep (c : Z) (f : fe) (x : F25) : Prop := lv c f /\ fz (fev f) = x.

Lemma eqp_fz a b : eqp a b -> fz a = fz b.
Proof.
  intros [q E]. apply fp_of_eq. replace a with (b + q * p25) by lia. apply Z.mod_add. discriminate.
Qed.
Lemma rep_weaken c c' f x : c <= c' -> rep c f x -> rep c' f x.
Proof. intros H [A B]. split; [eapply lv_weaken; eassumption|exact B]. Qed.
Lemma rep_eq c f x y : rep c f x -> x = y -> rep c f y.
Proof. intros H <-. exact H. Qed.
Lemma rep_0 : rep 1 FeZero (fz 0). Proof. split; [exact FeZero_lv|reflexivity]. Qed.
Lemma rep_1 : rep 1 FeOne (fz 1). Proof. split; [exact FeOne_lv|reflexivity]. Qed.
Lemma rep_add c c' f g x y : rep c f x -> rep c' g y -> c + c' <= 63 -> rep (c + c') (FeAdd f g) (x + y)%F.
Proof.
  intros [A <-] [B <-] H. destruct (FeAdd_ok c c' f g A B H) as [L V]. split; [exact L|]. rewrite V. apply fp_of_add.
Qed.
Lemma rep_sub c c' f g x y : rep c f x -> rep c' g y -> c + c' <= 63 -> rep (c + c') (FeSub f g) (x - y)%F.
Proof.
  intros [A <-] [B <-] H. destruct (FeSub_ok c c' f g A B H) as [L V]. split; [exact L|]. rewrite V. apply fp_of_sub.
Qed.
Lemma rep_neg c f x : rep c f x -> c <= 63 -> rep c (FeNeg f) (- x)%F.
Proof.
  intros [A <-] H. destruct (FeNeg_ok c f A H) as [L V]. split; [exact L|]. rewrite V. apply fp_of_opp.
Qed.
Lemma rep_mul c c' f g x y : rep c f x -> rep c' g y -> c <= 3 -> c' <= 3 -> rep 1 (FeMul f g) (x * y)%F.
Proof.
  intros [A <-] [B <-] H H'. destruct (FeMul_ok f g (lv_weaken _ _ _ H A) (lv_weaken _ _ _ H' B)) as [L V].
  split; [exact L|]. rewrite (eqp_fz _ _ V). apply fp_of_mul.
Qed.
Lemma rep_sq c f x : rep c f x -> c <= 3 -> rep 1 (FeSquare f) (x * x)%F.
Proof.
  intros [A <-] H. destruct (FeSquare_ok f (lv_weaken _ _ _ H A)) as [L V].
  split; [exact L|]. rewrite (eqp_fz _ _ V). apply fp_of_mul.
Qed.
Lemma rep_sq2 c f x : rep c f x -> c <= 3 -> rep 1 (FeSquare2 f) (x * x + x * x)%F.
Proof.
  intros [A <-] H. destruct (FeSquare2_ok f (lv_weaken _ _ _ H A)) as [L V].
  split; [exact L|]. rewrite (eqp_fz _ _ V). rewrite <- !fp_of_mul, <- fp_of_add. f_equal. lia.
Qed.
Lemma fval_rep c f x : rep c f x -> fval x = fev f mod p25.
Proof. intros [_ <-]. reflexivity. Qed.
Lemma rep_tobytes c f x : rep c f x -> c <= 3 -> fst (FeToBytes f) = z2le 32 (fval x) /\ rep 2 (snd (FeToBytes f)) x.
Proof.
  intros Hr H. rewrite (fval_rep _ _ _ Hr). destruct Hr as [A <-]. pose proof (lv_weaken _ _ _ H A) as A'.
  split; [exact (FeToBytes_enc f A')|]. destruct (FeToBytes_ok f A') as (_ & _ & _ & D & V).
  split; [exact D|]. rewrite V. apply fp_of_mod.
Qed.
Lemma rep_neg_bit c f x : rep c f x -> c <= 3 -> fst (FeIsNegative f) = fval x mod 2 /\ rep 2 (snd (FeIsNegative f)) x.
Proof.
  intros Hr H. rewrite (fval_rep _ _ _ Hr). destruct Hr as [A <-]. pose proof (lv_weaken _ _ _ H A) as A'.
  destruct (FeIsNegative_ok f A') as (B & D & V).
  split; [exact B|]. split; [exact D|]. rewrite V. apply fp_of_mod.
Qed.
Lemma rep_nonzero c f x : rep c f x -> c <= 3 -> FeIsNonZero f = if fp_dec x (fz 0) then 0 else 1.
Proof.
  intros [A <-] H. rewrite (FeIsNonZero_ok f (lv_weaken _ _ _ H A)).
  destruct (fp_dec _ _) as [E|E]; destruct (Z.eqb_spec (fev f mod p25) 0) as [E'|E']; try reflexivity; exfalso.
  - apply E'. now apply fp_of_0.
  - apply E. now apply fp_of_0.
Qed.
Lemma rep_frombytes s : length s = 32%nat -> bytes_ok s -> rep 1 (FeFromBytes s) (fz (le2z s mod 2 ^ 255)).
Proof.
  intros H1 H2. destruct (FeFromBytes_ok s H1 H2) as [L V]. split; [exact L|]. apply eqp_fz. exact V.
Qed.

(** ** Powers *)
Definition pw (x : F25) (e : Z) : F25 := fz (fval x ^ e).
Lemma pw_1 x : pw x 1 = x.
Proof. unfold pw. rewrite Z.pow_1_r. apply fp_of_val. Qed.
Lemma pw_add x a b : 0 <= a -> 0 <= b -> (pw x a * pw x b)%F = pw x (a + b).
Proof. intros A B. unfold pw. rewrite Z.pow_add_r by assumption. symmetry. apply fp_of_mul. Qed.
Lemma pw_mul x y e : 0 <= e -> pw (x * y)%F e = (pw x e * pw y e)%F.
Proof.
  intros He. unfold pw. rewrite <- fp_of_mul, <- Z.pow_mul_l. apply fp_of_eq.
  change (fval (x * y)%F) with ((fval x * fval y) mod p25). apply pow_mod_mod; [reflexivity|exact He].
Qed.
Lemma pw_pw x a b : 0 <= a -> 0 <= b -> pw (pw x a) b = pw x (a * b).
Proof.
  intros A B. unfold pw at 1 3. rewrite Z.pow_mul_r by assumption. apply fp_of_eq.
  unfold pw. change (fval (fz ?t)) with (t mod p25). apply pow_mod_mod; [reflexivity|exact B].
Qed.
Lemma pw_fermat x : x <> fz 0 -> pw x (p25 - 1) = fz 1.
Proof.
  intros H. unfold pw. apply fp_of_eq. rewrite fermat; [reflexivity|exact prime_p25|].
  intros E. apply H. rewrite <- (fp_of_val _ x). now apply fp_of_0.
Qed.
Lemma fp25_integral x y : (x * y)%F = fz 0 -> x = fz 0 \/ y = fz 0.
Proof. exact (ek_integral _ _ _ _ _ _ _ _ _ Kf25 fp_dec x y). Qed.
Lemma fp25_mul_ne x y : x <> fz 0 -> y <> fz 0 -> (x * y)%F <> fz 0.
Proof. intros A B H. destruct (fp25_integral _ _ H); auto. Qed.

Definition rp (x : F25) (f : fe) (e : Z) : Prop := rep 1 f (pw x e).
Lemma rp_mul x f g a b : 0 <= a -> 0 <= b -> rp x f a -> rp x g b -> rp x (FeMul f g) (a + b).
Proof.
  intros A B F G. unfold rp in *. rewrite <- pw_add by assumption. eapply rep_mul; [exact F|exact G|lia|lia].
Qed.
Lemma rp_sq x f a : 0 <= a -> rp x f a -> rp x (FeSquare f) (2 * a).
Proof.
  intros A F. unfold rp in *. replace (2 * a) with (a + a) by lia. rewrite <- pw_add by assumption. eapply rep_sq; [exact F|lia].
Qed.
Lemma itn_pow {A} (g : A -> A) (Q : A -> Z -> Prop) : (forall f a, 0 <= a -> Q f a -> Q (g f) (2 * a)) ->
  forall n f a, 0 <= a -> Q f a -> Q (itn g n f) (a * 2 ^ Z.of_nat n).
Proof.
  intros Hg. induction n as [|n IH]; intros f a A0 F; cbn [itn].
  - change (2 ^ Z.of_nat 0) with 1. rewrite Z.mul_1_r. exact F.
  - rewrite Nat2Z.inj_succ, Z.pow_succ_r by lia.
    replace (a * (2 * 2 ^ Z.of_nat n)) with (2 * a * 2 ^ Z.of_nat n) by ring.
    apply IH; [lia|]. now apply Hg.
Qed.
Lemma rp_sqn x n f a : 0 <= a -> rp x f a -> rp x (sqn n f) (a * 2 ^ Z.of_nat n).
Proof. exact (itn_pow FeSquare (rp x) (rp_sq x) n f a). Qed.

Lemma rp_mul' x f g a b : rp x f a -> rp x g b -> 0 <= a -> 0 <= b -> rp x (FeMul f g) (a + b).
Proof. intros. now apply rp_mul. Qed.
Lemma rp_sq' x f a : rp x f a -> 0 <= a -> rp x (FeSquare f) (2 * a).
Proof. intros. now apply rp_sq. Qed.
Lemma rp_sqn' x n f a : rp x f a -> 0 <= a -> rp x (sqn n f) (a * 2 ^ Z.of_nat n).
Proof. intros. now apply rp_sqn. Qed.
Ltac nn := first [assumption | vm_compute; discriminate].
(** the exponents are tracked as closed terms and computed at the end *)
Lemma FeInvert_pw z x : rep 3 z x -> rp x (FeInvert z) (p25 - 2).
Proof.
  intros Hz. unfold FeInvert.
  assert (Hm : forall f a, 0 <= a -> rp x f a -> rp x (FeMul z f) (a + 1)).
  { intros f a A F. unfold rp in *. rewrite <- pw_add, pw_1 by lia.
    eapply rep_eq; [eapply rep_mul; [exact Hz|exact F|lia|lia]|]. ring. }
  assert (H0 : rp x (FeSquare z) 2).
  { unfold rp. replace 2 with (1 + 1) at 1 by reflexivity. rewrite <- pw_add, pw_1 by lia. eapply rep_sq; [exact Hz|lia]. }
  cbv zeta. set (t0 := FeSquare z) in *. clearbody t0.
  pose proof (rp_sqn' x 2 _ _ H0 ltac:(nn)) as H1.
  apply Hm in H1; [|nn]. set (t1 := FeMul z _) in *. clearbody t1.
  pose proof (rp_mul' _ _ _ _ _ H0 H1 ltac:(nn) ltac:(nn)) as H2. set (t2 := FeMul t0 t1) in *. clearbody t2.
  pose proof (rp_sq' _ _ _ H2 ltac:(nn)) as H3.
  pose proof (rp_mul' _ _ _ _ _ H1 H3 ltac:(nn) ltac:(nn)) as H4. set (t4 := FeMul t1 _) in *. clearbody t4.
  pose proof (rp_sqn' x 5 _ _ H4 ltac:(nn)) as H5.
  pose proof (rp_mul' _ _ _ _ _ H5 H4 ltac:(nn) ltac:(nn)) as H6. set (t6 := FeMul _ t4) in *. clearbody t6.
  pose proof (rp_sqn' x 10 _ _ H6 ltac:(nn)) as H7.
  pose proof (rp_mul' _ _ _ _ _ H7 H6 ltac:(nn) ltac:(nn)) as H8. set (t8 := FeMul _ t6) in *. clearbody t8.
  pose proof (rp_sqn' x 20 _ _ H8 ltac:(nn)) as H9.
  pose proof (rp_mul' _ _ _ _ _ H9 H8 ltac:(nn) ltac:(nn)) as H10. set (t10 := FeMul _ t8) in *. clearbody t10.
  pose proof (rp_sqn' x 10 _ _ H10 ltac:(nn)) as H11.
  pose proof (rp_mul' _ _ _ _ _ H11 H6 ltac:(nn) ltac:(nn)) as H12. set (t12 := FeMul _ t6) in *. clearbody t12.
  pose proof (rp_sqn' x 50 _ _ H12 ltac:(nn)) as H13.
  pose proof (rp_mul' _ _ _ _ _ H13 H12 ltac:(nn) ltac:(nn)) as H14. set (t14 := FeMul _ t12) in *. clearbody t14.
  pose proof (rp_sqn' x 100 _ _ H14 ltac:(nn)) as H15.
  pose proof (rp_mul' _ _ _ _ _ H15 H14 ltac:(nn) ltac:(nn)) as H16. set (t16 := FeMul _ t14) in *. clearbody t16.
  pose proof (rp_sqn' x 50 _ _ H16 ltac:(nn)) as H17.
  pose proof (rp_mul' _ _ _ _ _ H17 H12 ltac:(nn) ltac:(nn)) as H18. set (t18 := FeMul _ t12) in *. clearbody t18.
  pose proof (rp_sqn' x 5 _ _ H18 ltac:(nn)) as H19.
  pose proof (rp_mul' _ _ _ _ _ H19 H2 ltac:(nn) ltac:(nn)) as H20.
  match type of H20 with rp _ _ ?e => replace (p25 - 2) with e by (vm_compute; reflexivity) end. exact H20.
Qed.

Lemma pw_inv x : x <> fz 0 -> pw x (p25 - 2) = fp_inv x.
Proof.
  intros N. assert (E : (pw x (p25 - 2) * x)%F = fz 1).
  { rewrite <- (pw_1 x) at 2. rewrite pw_add by (vm_compute; discriminate).
    replace (p25 - 2 + 1) with (p25 - 1) by reflexivity. now apply pw_fermat. }
  transitivity (pw x (p25 - 2) * x / x)%F; [field; exact N|]. rewrite E. field. exact N.
Qed.
Lemma FeInvert_ok z x : rep 3 z x -> x <> fz 0 -> rep 1 (FeInvert z) (fp_inv x).
Proof. intros H N. rewrite <- (pw_inv _ N). exact (FeInvert_pw z x H). Qed.

(** (p - 5) / 8 *)
Lemma fePow22523_ok z x : rep 3 z x -> rp x (fePow22523 z) ((p25 - 5) / 8).
Proof.
  intros Hz. unfold fePow22523.
  assert (Hm : forall f a, 0 <= a -> rp x f a -> rp x (FeMul z f) (a + 1)).
  { intros f a A F. unfold rp in *. rewrite <- pw_add, pw_1 by lia.
    eapply rep_eq; [eapply rep_mul; [exact Hz|exact F|lia|lia]|]. ring. }
  assert (Hm' : forall f a, 0 <= a -> rp x f a -> rp x (FeMul f z) (a + 1)).
  { intros f a A F. unfold rp in *. rewrite <- pw_add, pw_1 by lia.
    eapply rep_mul; [exact F|exact Hz|lia|lia]. }
  assert (H0 : rp x (FeSquare z) 2).
  { unfold rp. replace 2 with (1 + 1) at 1 by reflexivity. rewrite <- pw_add, pw_1 by lia. eapply rep_sq; [exact Hz|lia]. }
  cbv zeta. set (t0 := FeSquare z) in *. clearbody t0.
  pose proof (rp_sqn' x 2 _ _ H0 ltac:(nn)) as H1.
  apply Hm in H1; [|nn]. set (t1 := FeMul z _) in *. clearbody t1.
  pose proof (rp_mul' _ _ _ _ _ H0 H1 ltac:(nn) ltac:(nn)) as H2. set (t2 := FeMul t0 t1) in *. clearbody t2.
  pose proof (rp_sq' _ _ _ H2 ltac:(nn)) as H3.
  pose proof (rp_mul' _ _ _ _ _ H1 H3 ltac:(nn) ltac:(nn)) as H4. set (t4 := FeMul t1 _) in *. clearbody t4.
  pose proof (rp_sqn' x 5 _ _ H4 ltac:(nn)) as H5.
  pose proof (rp_mul' _ _ _ _ _ H5 H4 ltac:(nn) ltac:(nn)) as H6. set (t6 := FeMul _ t4) in *. clearbody t6.
  pose proof (rp_sqn' x 10 _ _ H6 ltac:(nn)) as H7.
  pose proof (rp_mul' _ _ _ _ _ H7 H6 ltac:(nn) ltac:(nn)) as H8. set (t8 := FeMul _ t6) in *. clearbody t8.
  pose proof (rp_sqn' x 20 _ _ H8 ltac:(nn)) as H9.
  pose proof (rp_mul' _ _ _ _ _ H9 H8 ltac:(nn) ltac:(nn)) as H10. set (t10 := FeMul _ t8) in *. clearbody t10.
  pose proof (rp_sqn' x 10 _ _ H10 ltac:(nn)) as H11.
  pose proof (rp_mul' _ _ _ _ _ H11 H6 ltac:(nn) ltac:(nn)) as H12. set (t12 := FeMul _ t6) in *. clearbody t12.
  pose proof (rp_sqn' x 50 _ _ H12 ltac:(nn)) as H13.
  pose proof (rp_mul' _ _ _ _ _ H13 H12 ltac:(nn) ltac:(nn)) as H14. set (t14 := FeMul _ t12) in *. clearbody t14.
  pose proof (rp_sqn' x 100 _ _ H14 ltac:(nn)) as H15.
  pose proof (rp_mul' _ _ _ _ _ H15 H14 ltac:(nn) ltac:(nn)) as H16. set (t16 := FeMul _ t14) in *. clearbody t16.
  pose proof (rp_sqn' x 50 _ _ H16 ltac:(nn)) as H17.
  pose proof (rp_mul' _ _ _ _ _ H17 H12 ltac:(nn) ltac:(nn)) as H18. set (t18 := FeMul _ t12) in *. clearbody t18.
  pose proof (rp_sqn' x 2 _ _ H18 ltac:(nn)) as H19.
  apply Hm' in H19; [|nn].
  match type of H19 with rp _ _ ?e => replace ((p25 - 5) / 8) with e by (vm_compute; reflexivity) end. exact H19.
Qed.

(** ** Points *)
Definition proj_rep (c : Z) (q : proj) (P : ed_pt) : Prop :=
  exists z, z <> fz 0 /\ rep c (pX q) (fst P * z)%F /\ rep 1 (pY q) (snd P * z)%F /\ rep 1 (pZ q) z.
Definition ext_rep (c : Z) (q : ext) (P : ed_pt) : Prop :=
  exists z, z <> fz 0 /\ rep c (eX q) (fst P * z)%F /\ rep 1 (eY q) (snd P * z)%F /\ rep 1 (eZ q) z /\
            rep 1 (eT q) (fst P * snd P * z)%F.
Definition comp_rep (q : comp) (P : ed_pt) : Prop :=
  exists z t, z <> fz 0 /\ t <> fz 0 /\ rep 3 (cX q) (fst P * z)%F /\ rep 3 (cY q) (snd P * t)%F /\
              rep 3 (cZ q) z /\ rep 3 (cT q) t.
Definition cached_rep (q : cached) (P : ed_pt) : Prop :=
  exists z, z <> fz 0 /\ rep 3 (dP q) ((snd P + fst P) * z)%F /\ rep 3 (dM q) ((snd P - fst P) * z)%F /\
            rep 1 (dZ q) z /\ rep 1 (dT q) (fst P * snd P * z * (ed_d + ed_d))%F.
Definition pre_rep (q : pre) (P : ed_pt) : Prop :=
  rep 1 (rP q) (snd P + fst P)%F /\ rep 1 (rM q) (snd P - fst P)%F /\ rep 1 (rD q) (fst P * snd P * (ed_d + ed_d))%F.

Lemma proj_zero_rep : proj_rep 1 proj_zero ed_zero.
Proof.
  exists (fz 1). split; [apply fp_of_ne0; split; reflexivity|]. unfold proj_zero, ed_zero, e_zero. cbn [pX pY pZ fst snd].
  split; [eapply rep_eq; [exact rep_0|ring]|]. split; [eapply rep_eq; [exact rep_1|ring]|exact rep_1].
Qed.
Lemma ext_zero_rep : ext_rep 1 ext_zero ed_zero.
Proof.
  exists (fz 1). split; [apply fp_of_ne0; split; reflexivity|]. unfold ext_zero, ed_zero, e_zero. cbn [eX eY eZ eT fst snd].
  split; [eapply rep_eq; [exact rep_0|ring]|]. split; [eapply rep_eq; [exact rep_1|ring]|]. split; [exact rep_1|].
  eapply rep_eq; [exact rep_0|ring].
Qed.
Lemma pre_zero_rep : pre_rep pre_zero ed_zero.
Proof.
  unfold pre_rep, pre_zero, ed_zero, e_zero. cbn [rP rM rD fst snd].
  split; [eapply rep_eq; [exact rep_1|ring]|]. split; [eapply rep_eq; [exact rep_1|ring]|].
  eapply rep_eq; [exact rep_0|ring].
Qed.
Lemma ext_toproj_rep c q P : ext_rep c q P -> proj_rep c (ext_toproj q) P.
Proof. intros (z & N & A & B & C & _). exists z. auto. Qed.
Lemma comp_toproj_rep q P : comp_rep q P -> proj_rep 1 (comp_toproj q) P.
Proof.
  intros (z & t & N & M & A & B & C & D). exists (z * t)%F. split; [now apply fp25_mul_ne|]. unfold comp_toproj. cbn [pX pY pZ].
  split; [eapply rep_eq; [eapply rep_mul; [exact A|exact D|lia|lia]|ring]|].
  split; [eapply rep_eq; [eapply rep_mul; [exact B|exact C|lia|lia]|ring]|].
  eapply rep_mul; [exact C|exact D|lia|lia].
Qed.
Lemma comp_toext_rep q P : comp_rep q P -> ext_rep 1 (comp_toext q) P.
Proof.
  intros (z & t & N & M & A & B & C & D). exists (z * t)%F. split; [now apply fp25_mul_ne|]. unfold comp_toext. cbn [eX eY eZ eT].
  split; [eapply rep_eq; [eapply rep_mul; [exact A|exact D|lia|lia]|ring]|].
  split; [eapply rep_eq; [eapply rep_mul; [exact B|exact C|lia|lia]|ring]|].
  split; [eapply rep_mul; [exact C|exact D|lia|lia]|].
  eapply rep_eq; [eapply rep_mul; [exact A|exact B|lia|lia]|ring].
Qed.

Lemma div_mul (a b c : F25) : b <> fz 0 -> (a * c)%F = (a / b * (b * c))%F.
Proof. intros N. field. exact N. Qed.

Lemma fe_d2_rep : rep 1 fe_d2 (ed_d + ed_d)%F.
Proof.
  split.
  - apply lvb_ok. vm_compute. reflexivity.
  - rewrite ed_d_val, <- fp_of_add. apply fp_of_eq. vm_compute. reflexivity.
Qed.
Lemma fe_d_rep : rep 1 fe_d ed_d.
Proof.
  split.
  - apply lvb_ok. vm_compute. reflexivity.
  - rewrite ed_d_val. apply fp_of_eq. vm_compute. reflexivity.
Qed.
Lemma fe_sqrtm1_rep : rep 1 fe_sqrtm1 (fz ed_iz).
Proof.
  split.
  - apply lvb_ok. vm_compute. reflexivity.
  - apply fp_of_eq. vm_compute. reflexivity.
Qed.

Lemma ext_tocached_rep c q P : c <= 2 -> ext_rep c q P -> cached_rep (ext_tocached q) P.
Proof.
  intros Hc (z & N & A & B & C & D). exists z. split; [exact N|]. unfold ext_tocached. cbn [dP dM dZ dT].
  split; [eapply rep_weaken; [|eapply rep_eq; [eapply rep_add; [exact B|exact A|lia]|ring]]; lia|].
  split; [eapply rep_weaken; [|eapply rep_eq; [eapply rep_sub; [exact B|exact A|lia]|ring]]; lia|].
  split; [exact C|].
  eapply rep_mul; [exact D|exact fe_d2_rep|lia|lia].
Qed.

(** doubling *)
Lemma proj_double_rep c q P : c <= 2 -> ed_on P -> proj_rep c q P -> comp_rep (proj_double q) (ed_add P P).
Proof.
  intros Hc Ho (z & N & A & B & C). destruct P as [x y]. cbn [fst snd] in *.
  pose proof (e_on_eq _ _ _ _ _ _ _ _ _ Kf25 ed_d x y Ho) as Eq.
  destruct (ed_complete _ _ _ _ Ho Ho) as [N1 N2]. cbv zeta in N1, N2.
  set (m := (ed_d * (x * x) * (y * y))%F) in *.
  exists (z * z * (fz 1 + m))%F, (z * z * (fz 1 - m))%F.
  split; [now apply fp25_mul_ne; [apply fp25_mul_ne|]|]. split; [now apply fp25_mul_ne; [apply fp25_mul_ne|]|].
  pose proof (rep_sq _ _ _ A ltac:(lia)) as X2. pose proof (rep_sq _ _ _ B ltac:(lia)) as Y2.
  pose proof (rep_sq2 _ _ _ C ltac:(lia)) as Z2.
  pose proof (rep_add _ _ _ _ _ _ A B ltac:(lia)) as S.
  pose proof (rep_sq _ _ _ S ltac:(lia)) as S2.
  pose proof (rep_add _ _ _ _ _ _ Y2 X2 ltac:(lia)) as RY. pose proof (rep_sub _ _ _ _ _ _ Y2 X2 ltac:(lia)) as RZ.
  pose proof (rep_sub _ _ _ _ _ _ S2 RY ltac:(lia)) as RX. pose proof (rep_sub _ _ _ _ _ _ Z2 RZ ltac:(lia)) as RT.
  unfold proj_double. cbn [cX cY cZ cT ed_add e_add fst snd]. fold m.
  assert (ET : (z * z * (fz 1 - m))%F = (z * z + z * z - (y * z * (y * z) - x * z * (x * z)))%F) by (rewrite Eq; ring).
  assert (EZ : (z * z * (fz 1 + m))%F = (y * z * (y * z) - x * z * (x * z))%F) by (rewrite Eq; ring).
  repeat split.
  - exact (proj1 RX).
  - rewrite (proj2 RX). field. exact N1.
  - exact (proj1 (rep_weaken (1 + 1) 3 _ _ ltac:(lia) RY)).
  - rewrite (proj2 RY). field. exact N2.
  - exact (proj1 (rep_weaken (1 + 1) 3 _ _ ltac:(lia) RZ)).
  - rewrite (proj2 RZ). symmetry. exact EZ.
  - exact (proj1 RT).
  - rewrite (proj2 RT). symmetry. exact ET.
Qed.

Lemma ext_double_rep c q P : c <= 2 -> ed_on P -> ext_rep c q P -> comp_rep (ext_double q) (ed_add P P).
Proof. intros Hc Ho H. eapply proj_double_rep; [exact Hc|exact Ho|]. apply ext_toproj_rep. exact H. Qed.

(** The common part of the four additions *)
Lemma add_arith x1 y1 x2 y2 z1 z2 : ed_on (x1, y1) -> ed_on (x2, y2) -> z1 <> fz 0 -> z2 <> fz 0 ->
  let m := (ed_d * (x1 * x2) * (y1 * y2))%F in
  let a := ((y1 * z1 + x1 * z1) * ((y2 + x2) * z2))%F in
  let b := ((y1 * z1 - x1 * z1) * ((y2 - x2) * z2))%F in
  let c := (x2 * y2 * z2 * (ed_d + ed_d) * (x1 * y1 * z1))%F in
  let w := (z1 * z2 + z1 * z2)%F in
  (w + c)%F <> fz 0 /\ (w - c)%F <> fz 0 /\
  (a - b)%F = (fst (ed_add (x1, y1) (x2, y2)) * (w + c))%F /\
  (a + b)%F = (snd (ed_add (x1, y1) (x2, y2)) * (w - c))%F.
Proof.
  intros H1 H2 N1 N2 m a b c w. destruct (ed_complete _ _ _ _ H1 H2) as [A B]. cbv zeta in A, B. fold m in A, B.
  assert (E1 : (w + c)%F = ((z1 * z2) * ((fz 1 + fz 1) * (fz 1 + m)))%F) by (unfold w, c, m; ring).
  assert (E2 : (w - c)%F = ((z1 * z2) * ((fz 1 + fz 1) * (fz 1 - m)))%F) by (unfold w, c, m; ring).
  pose proof (fp25_mul_ne _ _ N1 N2) as NZ. pose proof ed_char2 as N3.
  split; [rewrite E1; now apply fp25_mul_ne; [|apply fp25_mul_ne]|].
  split; [rewrite E2; now apply fp25_mul_ne; [|apply fp25_mul_ne]|].
  cbn [ed_add e_add fst snd]. fold m. rewrite E1, E2. unfold a, b.
  split; field; assumption.
Qed.

Lemma geAdd_rep c p q P Q : c <= 2 -> ed_on P -> ed_on Q -> ext_rep c p P -> cached_rep q Q ->
  comp_rep (geAdd p q) (ed_add P Q).
Proof.
  intros Hc HP HQ (z1 & N1 & A1 & B1 & C1 & D1) (z2 & N2 & A2 & B2 & C2 & D2).
  destruct P as [x1 y1], Q as [x2 y2]. cbn [fst snd] in *.
  destruct (add_arith x1 y1 x2 y2 z1 z2 HP HQ N1 N2) as (M1 & M2 & E1 & E2). cbv zeta in *.
  eexists _, _. split; [exact M1|]. split; [exact M2|].
  pose proof (rep_add _ _ _ _ _ _ B1 A1 ltac:(lia)) as S. pose proof (rep_sub _ _ _ _ _ _ B1 A1 ltac:(lia)) as D.
  pose proof (rep_mul _ _ _ _ _ _ S A2 ltac:(lia) ltac:(lia)) as U. pose proof (rep_mul _ _ _ _ _ _ D B2 ltac:(lia) ltac:(lia)) as V.
  pose proof (rep_mul _ _ _ _ _ _ D2 D1 ltac:(lia) ltac:(lia)) as T. pose proof (rep_mul _ _ _ _ _ _ C1 C2 ltac:(lia) ltac:(lia)) as W.
  pose proof (rep_add _ _ _ _ _ _ W W ltac:(lia)) as W2.
  unfold geAdd. cbn [cX cY cZ cT].
  split; [eapply rep_weaken; [|eapply rep_eq; [eapply rep_sub; [exact U|exact V|lia]|exact E1]]; lia|].
  split; [eapply rep_weaken; [|eapply rep_eq; [eapply rep_add; [exact U|exact V|lia]|exact E2]]; lia|].
  split; [eapply rep_weaken; [|eapply rep_add; [exact W2|exact T|lia]]; lia|].
  eapply rep_weaken; [|eapply rep_sub; [exact W2|exact T|lia]]; lia.
Qed.

Lemma geMixedAdd_rep c p q P Q : c <= 2 -> ed_on P -> ed_on Q -> ext_rep c p P -> pre_rep q Q ->
  comp_rep (geMixedAdd p q) (ed_add P Q).
Proof.
  intros Hc HP HQ (z1 & N1 & A1 & B1 & C1 & D1) (A2 & B2 & D2).
  destruct P as [x1 y1], Q as [x2 y2]. cbn [fst snd] in *.
  assert (N2 : fz 1 <> fz 0) by (apply fp_of_ne0; split; reflexivity).
  destruct (add_arith x1 y1 x2 y2 z1 (fz 1) HP HQ N1 N2) as (M1 & M2 & E1 & E2). cbv zeta in *.
  eexists _, _. split; [exact M1|]. split; [exact M2|].
  pose proof (rep_add _ _ _ _ _ _ B1 A1 ltac:(lia)) as S. pose proof (rep_sub _ _ _ _ _ _ B1 A1 ltac:(lia)) as D.
  pose proof (rep_mul _ _ _ _ _ _ S A2 ltac:(lia) ltac:(lia)) as U. pose proof (rep_mul _ _ _ _ _ _ D B2 ltac:(lia) ltac:(lia)) as V.
  pose proof (rep_mul _ _ _ _ _ _ D2 D1 ltac:(lia) ltac:(lia)) as T.
  pose proof (rep_add _ _ _ _ _ _ C1 C1 ltac:(lia)) as W2.
  unfold geMixedAdd. cbn [cX cY cZ cT].
  split; [eapply rep_weaken; [|eapply rep_eq; [eapply rep_sub; [exact U|exact V|lia]|rewrite <- E1; ring]]; lia|].
  split; [eapply rep_weaken; [|eapply rep_eq; [eapply rep_add; [exact U|exact V|lia]|rewrite <- E2; ring]]; lia|].
  split; [eapply rep_weaken; [|eapply rep_eq; [eapply rep_add; [exact W2|exact T|lia]|ring]]; lia|].
  eapply rep_weaken; [|eapply rep_eq; [eapply rep_sub; [exact W2|exact T|lia]|ring]]; lia.
Qed.

(** subtraction is addition of the negative: swap the first two coordinates, negate the last *)
Lemma geSub_rep c p q P Q : c <= 2 -> ed_on P -> ed_on Q -> ext_rep c p P -> cached_rep q Q ->
  comp_rep (geSub p q) (ed_add P (ed_neg Q)).
Proof.
  intros Hc HP HQ (z1 & N1 & A1 & B1 & C1 & D1) (z2 & N2 & A2 & B2 & C2 & D2).
  pose proof (g_neg _ _ _ _ _ ed_group _ HQ) as HN.
  destruct P as [x1 y1], Q as [x2 y2]. cbn [fst snd ed_neg e_neg] in *.
  destruct (add_arith x1 y1 (- x2)%F y2 z1 z2 HP HN N1 N2) as (M1 & M2 & E1 & E2). cbv zeta in *.
  eexists _, _. split; [exact M1|]. split; [exact M2|].
  pose proof (rep_add _ _ _ _ _ _ B1 A1 ltac:(lia)) as S. pose proof (rep_sub _ _ _ _ _ _ B1 A1 ltac:(lia)) as D.
  pose proof (rep_mul _ _ _ _ _ _ S B2 ltac:(lia) ltac:(lia)) as U. pose proof (rep_mul _ _ _ _ _ _ D A2 ltac:(lia) ltac:(lia)) as V.
  pose proof (rep_mul _ _ _ _ _ _ D2 D1 ltac:(lia) ltac:(lia)) as T. pose proof (rep_mul _ _ _ _ _ _ C1 C2 ltac:(lia) ltac:(lia)) as W.
  pose proof (rep_add _ _ _ _ _ _ W W ltac:(lia)) as W2.
  unfold geSub. cbn [cX cY cZ cT].
  split; [eapply rep_weaken; [|eapply rep_eq; [eapply rep_sub; [exact U|exact V|lia]|rewrite <- E1; ring]]; lia|].
  split; [eapply rep_weaken; [|eapply rep_eq; [eapply rep_add; [exact U|exact V|lia]|rewrite <- E2; ring]]; lia|].
  split; [eapply rep_weaken; [|eapply rep_eq; [eapply rep_sub; [exact W2|exact T|lia]|ring]]; lia|].
  eapply rep_weaken; [|eapply rep_eq; [eapply rep_add; [exact W2|exact T|lia]|ring]]; lia.
Qed.

Lemma geMixedSub_rep c p q P Q : c <= 2 -> ed_on P -> ed_on Q -> ext_rep c p P -> pre_rep q Q ->
  comp_rep (geMixedSub p q) (ed_add P (ed_neg Q)).
Proof.
  intros Hc HP HQ (z1 & N1 & A1 & B1 & C1 & D1) (A2 & B2 & D2).
  pose proof (g_neg _ _ _ _ _ ed_group _ HQ) as HN.
  destruct P as [x1 y1], Q as [x2 y2]. cbn [fst snd ed_neg e_neg] in *.
  assert (N2 : fz 1 <> fz 0) by (apply fp_of_ne0; split; reflexivity).
  destruct (add_arith x1 y1 (- x2)%F y2 z1 (fz 1) HP HN N1 N2) as (M1 & M2 & E1 & E2). cbv zeta in *.
  eexists _, _. split; [exact M1|]. split; [exact M2|].
  pose proof (rep_add _ _ _ _ _ _ B1 A1 ltac:(lia)) as S. pose proof (rep_sub _ _ _ _ _ _ B1 A1 ltac:(lia)) as D.
  pose proof (rep_mul _ _ _ _ _ _ S B2 ltac:(lia) ltac:(lia)) as U. pose proof (rep_mul _ _ _ _ _ _ D A2 ltac:(lia) ltac:(lia)) as V.
  pose proof (rep_mul _ _ _ _ _ _ D2 D1 ltac:(lia) ltac:(lia)) as T.
  pose proof (rep_add _ _ _ _ _ _ C1 C1 ltac:(lia)) as W2.
  unfold geMixedSub. cbn [cX cY cZ cT].
  split; [eapply rep_weaken; [|eapply rep_eq; [eapply rep_sub; [exact U|exact V|lia]|rewrite <- E1; ring]]; lia|].
  split; [eapply rep_weaken; [|eapply rep_eq; [eapply rep_add; [exact U|exact V|lia]|rewrite <- E2; ring]]; lia|].
  split; [eapply rep_weaken; [|eapply rep_eq; [eapply rep_sub; [exact W2|exact T|lia]|ring]]; lia|].
  eapply rep_weaken; [|eapply rep_eq; [eapply rep_add; [exact W2|exact T|lia]|ring]]; lia.
Qed.
