(** The Montgomery ladder of curve25519_sha256.go: x-only points as Edwards points. *)
Require Import ZArith List Lia Bool Znumtheory Field.
Require Import Verif.Base Verif.Words Verif.Fp Verif.Group Verif.Edw Verif.SpecEd Verif.EdCurve Verif.ModelSlp Verif.ModelEd Verif.ProofSlp Verif.ProofEdF Verif.ProofEdG Verif.ProofEdX.
Require Import Verif.ModelCshaCode Verif.ModelCsha Verif.ProofCshaF.
Import ListNotations.
Open Scope Z_scope.

Lemma Kf25c : field_theory (fz 0) (fz 1) fp_add fp_mul fp_sub fp_opp fp_div fp_inv (@eq F25).
Proof. exact Kf25. Qed.
Add Field KF25c : Kf25c.

Global Opaque cs_mul cs_sqr cs_mulSmall cs_add cs_sub cs_add0 cs_set cs_pack cs_isNegative cs_isOverflow cs_unpack rd wd rd2 rdu.

(** ** Limb vectors as field elements: reduced, and as an operand *)
Definition cr (f : long10) (x : F25) : Prop := rd f /\ fz (fev f) = x.
Definition cr2 (f : long10) (x : F25) : Prop := rd2 f /\ fz (fev f) = x.
Definition cw (f : long10) (x : F25) : Prop := wd f /\ fz (fev f) = x.
Lemma cr_cw f x : cr f x -> cw f x. Proof. intros [A B]. split; [now apply rd_wd|exact B]. Qed.
Lemma cr_cr2 f x : cr f x -> cr2 f x. Proof. intros [A B]. split; [now apply rd_rd2|exact B]. Qed.
Lemma cr2_cw f x : cr2 f x -> cw f x. Proof. intros [A B]. split; [now apply rd2_wd|exact B]. Qed.
Lemma cr_eq f x y : cr f x -> x = y -> cr f y. Proof. intros H <-. exact H. Qed.
Lemma cw_eq f x y : cw f x -> x = y -> cw f y. Proof. intros H <-. exact H. Qed.
Lemma cr_mul f g x y : cw f x -> cw g y -> cr (cs_mul f g) (x * y)%F.
Proof.
  intros [A <-] [B <-]. destruct (cs_mul_ok f g A B) as [L V]. split; [exact L|]. rewrite (eqp_fz _ _ V). apply fp_of_mul.
Qed.
Lemma cr_sqr f x : cw f x -> cr (cs_sqr f) (x * x)%F.
Proof.
  intros [A <-]. destruct (cs_sqr_ok f A) as [L V]. split; [exact L|]. rewrite (eqp_fz _ _ V). apply fp_of_mul.
Qed.
Lemma cr_small f x y : cw f x -> 0 <= y <= 486662 -> cr (cs_mulSmall f y) (x * fz y)%F.
Proof.
  intros [A <-] H. destruct (cs_mulSmall_ok f y A H) as [L V]. split; [exact L|]. rewrite (eqp_fz _ _ V). apply fp_of_mul.
Qed.
Lemma cr_add f g x y : cr f x -> cr g y -> cr2 (cs_add f g) (x + y)%F.
Proof. intros [A <-] [B <-]. destruct (add_rd f g A B) as [L V]. split; [exact L|]. rewrite V. apply fp_of_add. Qed.
Lemma cr_sub f g x y : cr f x -> cr g y -> cr2 (cs_sub f g) (x - y)%F.
Proof. intros [A <-] [B <-]. destruct (sub_rd f g A B) as [L V]. split; [exact L|]. rewrite V. apply fp_of_sub. Qed.
Lemma cr2_add f g x y : cr2 f x -> cr g y -> cw (cs_add f g) (x + y)%F.
Proof. intros [A <-] [B <-]. destruct (add_rd2 f g A B) as [L V]. split; [exact L|]. rewrite V. apply fp_of_add. Qed.
Lemma cr2_sub f g x y : cr2 f x -> cr g y -> cw (cs_sub f g) (x - y)%F.
Proof. intros [A <-] [B <-]. destruct (sub_rd2 f g A B) as [L V]. split; [exact L|]. rewrite V. apply fp_of_sub. Qed.
Lemma cr_add0 f x v : cr f x -> - 2 ^ 26 <= v <= 2 ^ 26 -> cr2 (cs_add0 f v) (x + fz v)%F.
Proof. intros [A <-] H. destruct (add0_rd f v A H) as [L V]. split; [exact L|]. rewrite V. apply fp_of_add. Qed.
Lemma cr2_add0 f x v : cr2 f x -> - 2 ^ 26 <= v <= 2 ^ 26 -> cw (cs_add0 f v) (x + fz v)%F.
Proof. intros [A <-] H. destruct (add0_rd2 f v A H) as [L V]. split; [exact L|]. rewrite V. apply fp_of_add. Qed.
Lemma cr_set v : 0 <= v < 2 ^ 26 -> cr (cs_set v) (fz v).
Proof. intros H. destruct (set_rd v H) as [A B]. split; [exact A|]. now rewrite B. Qed.
Lemma cr_neg f x : cr f x -> cs_isNegative f = fval x mod 2.
Proof. intros [A <-]. exact (cs_isNegative_ok f A). Qed.
(** pack is right except for limbs with sum -19 .. -1 *)
Lemma cr_pack f x : cr f x -> cs_pack f = f25_enc x \/ (p25 - 19 <= fval x /\ cs_pack f = z2le 32 (fval x - p25)).
Proof.
  intros [A <-]. destruct (cs_pack_ok f A) as [E|[B E]]; [left; exact E|right].
  change (fval (fz (fev f))) with (fev f mod p25).
  assert (M : fev f + p25 = fev f mod p25).
  { apply (Z.mod_unique_pos _ _ (-1)); [|lia]. assert (PV : p25 = 2 ^ 255 - 19) by reflexivity. rewrite PV. clear - B. lia. }
  rewrite <- M. split; [lia|]. rewrite E. f_equal. lia.
Qed.
Lemma cr_pack_small f x : cr f x -> fval x < p25 - 19 -> cs_pack f = f25_enc x.
Proof. intros H L. destruct (cr_pack f x H) as [E|[B _]]; [exact E|lia]. Qed.

(** ** Inversion *)
Definition cp (x : F25) (f : long10) (e : Z) : Prop := cr f (pw x e).
Lemma cp_mul x f g a b : cp x f a -> cp x g b -> 0 <= a -> 0 <= b -> cp x (cs_mul f g) (a + b).
Proof. intros F G A B. unfold cp in *. rewrite <- pw_add by assumption. apply cr_mul; now apply cr_cw. Qed.
Lemma cp_sq x f a : cp x f a -> 0 <= a -> cp x (cs_sqr f) (2 * a).
Proof. intros F A. unfold cp in *. replace (2 * a) with (a + a) by lia. rewrite <- pw_add by assumption. apply cr_sqr; now apply cr_cw. Qed.
Lemma cp_sqn x n : forall f a, cp x f a -> 0 <= a -> cp x (cs_sqr_n n f) (a * 2 ^ Z.of_nat n).
Proof.
  induction n as [|n IH]; intros f a F A; cbn [cs_sqr_n].
  - change (2 ^ Z.of_nat 0) with 1. rewrite Z.mul_1_r. exact F.
  - rewrite Nat2Z.inj_succ, Z.pow_succ_r by lia.
    replace (a * (2 * 2 ^ Z.of_nat n)) with (2 * a * 2 ^ Z.of_nat n) by ring.
    apply IH; [|lia]. now apply cp_sq.
Qed.
Lemma recip_t z x : cw z x -> cp x (fst (cs_recip_t z)) 11 /\ cp x (snd (cs_recip_t z)) (2 ^ 252 - 4).
Proof.
  intros Hz. unfold cs_recip_t.
  assert (H1 : cp x (cs_sqr z) 2).
  { unfold cp. replace 2 with (1 + 1) at 1 by reflexivity. rewrite <- pw_add, pw_1 by lia. now apply cr_sqr. }
  cbv zeta. set (t1 := cs_sqr z) in *. clearbody t1.
  pose proof (cp_sq _ _ _ (cp_sq _ _ _ H1 ltac:(nn)) ltac:(nn)) as H2. set (t2 := cs_sqr (cs_sqr t1)) in *. clearbody t2.
  assert (H3 : cp x (cs_mul t2 z) 9).
  { unfold cp. change 9 with (8 + 1). rewrite <- pw_add, pw_1 by lia. apply cr_mul; [|exact Hz]. apply cr_cw. exact H2. }
  set (t3 := cs_mul t2 z) in *. clearbody t3.
  pose proof (cp_mul _ _ _ _ _ H3 H1 ltac:(nn) ltac:(nn)) as H4. set (t4 := cs_mul t3 t1) in *. clearbody t4.
  pose proof (cp_mul _ _ _ _ _ (cp_sq _ _ _ H4 ltac:(nn)) H3 ltac:(nn) ltac:(nn)) as H5. set (t5 := cs_mul (cs_sqr t4) t3) in *. clearbody t5.
  pose proof (cp_mul _ _ _ _ _ (cp_sqn x 5 _ _ H5 ltac:(nn)) H5 ltac:(nn) ltac:(nn)) as H6. set (t6 := cs_mul _ t5) in *. clearbody t6.
  pose proof (cp_mul _ _ _ _ _ (cp_sqn x 10 _ _ H6 ltac:(nn)) H6 ltac:(nn) ltac:(nn)) as H7. set (t7 := cs_mul _ t6) in *. clearbody t7.
  pose proof (cp_mul _ _ _ _ _ (cp_sqn x 20 _ _ H7 ltac:(nn)) H7 ltac:(nn) ltac:(nn)) as H8. set (t8 := cs_mul _ t7) in *. clearbody t8.
  pose proof (cp_mul _ _ _ _ _ (cp_sqn x 10 _ _ H8 ltac:(nn)) H6 ltac:(nn) ltac:(nn)) as H9. set (t9 := cs_mul _ t6) in *. clearbody t9.
  pose proof (cp_mul _ _ _ _ _ (cp_sqn x 50 _ _ H9 ltac:(nn)) H9 ltac:(nn) ltac:(nn)) as H10. set (t10 := cs_mul _ t9) in *. clearbody t10.
  pose proof (cp_mul _ _ _ _ _ (cp_sqn x 100 _ _ H10 ltac:(nn)) H10 ltac:(nn) ltac:(nn)) as H11. set (t11 := cs_mul _ t10) in *. clearbody t11.
  pose proof (cp_mul _ _ _ _ _ (cp_sqn x 50 _ _ H11 ltac:(nn)) H9 ltac:(nn) ltac:(nn)) as H12. set (t12 := cs_mul _ t9) in *. clearbody t12.
  pose proof (cp_sqn x 2 _ _ H12 ltac:(nn)) as H13. set (t13 := cs_sqr_n _ _) in *. clearbody t13. cbn [fst snd]. split.
  - exact H4.
  - match type of H13 with cp _ _ ?e => replace (2 ^ 252 - 4) with e by (vm_compute; reflexivity) end. exact H13.
Qed.
Lemma cr_recip z x : cw z x -> cr (cs_recip z) (fp_inv x).
Proof.
  intros Hz. destruct (recip_t z x Hz) as [A B]. unfold cs_recip. destruct (cs_recip_t z) as [t0 t2]. cbn [fst snd] in *.
  pose proof (cp_mul _ _ _ _ _ (cp_sqn x 3 _ _ B ltac:(nn)) A ltac:(nn) ltac:(nn)) as H.
  match type of H with cp _ _ ?e => replace e with (p25 - 2) in H by (vm_compute; reflexivity) end.
  unfold cp in H. destruct (fp_dec x (fz 0)) as [->|N]; [exact H|]. rewrite (pw_inv _ N) in H. exact H.
Qed.
Lemma cr_recip1 z x : cw z x -> cr (cs_recip1 z) (pw x ((p25 - 5) / 8)).
Proof.
  intros Hz. destruct (recip_t z x Hz) as [A B]. unfold cs_recip1. destruct (cs_recip_t z) as [t0 t2]. cbn [fst snd] in *.
  replace ((p25 - 5) / 8) with (1 + (2 ^ 252 - 4)) by (vm_compute; reflexivity). rewrite <- pw_add, pw_1 by (try lia; nn).
  apply cr_mul; [exact Hz|apply cr_cw; exact B].
Qed.
Global Opaque cs_recip cs_recip1.

(** ** x-only points *)
(** (X : Z) stands for the point P: u = X/Z is (1 + y)/(1 - y) *)
Definition mp (s : F25 * F25) (y : F25) : Prop :=
  exists c, c <> fz 0 /\ fst s = (c * (fz 1 + y))%F /\ snd s = (c * (fz 1 - y))%F.
Lemma two_ne0 : (fz 1 + fz 1)%F <> fz 0. Proof. exact two_ne. Qed.
Lemma half_eq (a b : F25) : ((fz 1 + fz 1) * a = (fz 1 + fz 1) * b)%F -> a = b.
Proof.
  intros H. transitivity ((fz 1 + fz 1) * a / (fz 1 + fz 1))%F; [field; exact two_ne0|]. rewrite H. field. exact two_ne0.
Qed.
Lemma mp_intro X Z y : (X * (fz 1 - y) = Z * (fz 1 + y))%F -> (X <> fz 0 \/ Z <> fz 0) -> mp (X, Z) y.
Proof.
  intros E N. exists ((X + Z) / (fz 1 + fz 1))%F. cbn [fst snd].
  assert (D : (X - Z = y * (X + Z))%F).
  { transitivity (X * (fz 1 - y) - Z * (fz 1 + y) + y * (X + Z))%F; [ring|]. rewrite E. ring. }
  assert (EX : X = ((X + Z) / (fz 1 + fz 1) * (fz 1 + y))%F).
  { apply half_eq. transitivity ((X + Z) + (X - Z))%F; [ring|]. rewrite D. field. exact two_ne0. }
  assert (EZ : Z = ((X + Z) / (fz 1 + fz 1) * (fz 1 - y))%F).
  { apply half_eq. transitivity ((X + Z) - (X - Z))%F; [ring|]. rewrite D. field. exact two_ne0. }
  split; [|split; assumption]. intros C. rewrite C in EX, EZ.
  destruct N as [N|N]; apply N; [rewrite EX|rewrite EZ]; ring.
Qed.
Lemma mp_quot X Z y : mp (X, Z) y -> (X * fp_inv Z)%F = mont_u y.
Proof.
  intros (c & Hc & EX & EZ). cbn [fst snd] in *. subst. unfold mont_u.
  destruct (fp_dec (fz 1 - y)%F (fz 0)) as [E|N].
  - rewrite E. unfold fp_div. transitivity (fz 0); [|rewrite fp_inv_0; ring].
    replace (c * fz 0)%F with (fz 0) by ring. rewrite fp_inv_0. ring.
  - field. auto.
Qed.

Lemma on_eq x y : ed_on (x, y) -> (ed_d * (x * x) * (y * y) = y * y - x * x - fz 1)%F.
Proof. intros H. unfold ed_on, e_on in H. rewrite H. ring. Qed.
Lemma ed_add_y x1 y1 x2 y2 : snd (ed_add (x1, y1) (x2, y2)) = ((y1 * y2 + x1 * x2) / (fz 1 - ed_d * (x1 * x2) * (y1 * y2)))%F.
Proof. reflexivity. Qed.
Lemma sum_key x1 y1 x2 y2 : ed_on (x1, y1) -> ed_on (x2, y2) ->
  let N := (y1 * y2)%F in let M := (x1 * x2)%F in let E := (ed_d * (x1 * x2) * (y1 * y2))%F in
  (fz 1 + N * N - E * E - M * M = (y1 * y1 + y2 * y2) + ed_d * (M * M) * (y1 * y1 + y2 * y2))%F.
Proof.
  intros H1 H2. pose proof (on_eq _ _ H1) as E1. pose proof (on_eq _ _ H2) as E2. cbv zeta.
  transitivity (fz 1 + (y1 * y1) * (y2 * y2) - (ed_d * (x1 * x1) * (y1 * y1)) * (ed_d * (x2 * x2) * (y2 * y2)) - (x1 * x1) * (x2 * x2))%F; [ring|].
  transitivity (y1 * y1 + y2 * y2 + (x2 * x2) * (ed_d * (x1 * x1) * (y1 * y1)) + (x1 * x1) * (ed_d * (x2 * x2) * (y2 * y2)))%F; [|ring].
  rewrite E1, E2. ring.
Qed.
(** (y1 + y2)^2 (1 - y+)(1 - y-) = (y1 - y2)^2 (1 + y+)(1 + y-) *)
Lemma sum_diff P Q : ed_on P -> ed_on Q ->
  let y1 := snd P in let y2 := snd Q in let s := snd (ed_add P Q) in let d := snd (ed_add P (ed_neg Q)) in
  ((y1 + y2) * (y1 + y2) * ((fz 1 - s) * (fz 1 - d)) = (y1 - y2) * (y1 - y2) * ((fz 1 + s) * (fz 1 + d)))%F.
Proof.
  destruct P as [x1 y1], Q as [x2 y2]. intros H1 H2. cbv zeta. cbn [snd ed_neg e_neg]. change (ed_neg (x2, y2)) with (fp_opp x2, y2).
  rewrite !ed_add_y. destruct (ed_complete _ _ _ _ H1 H2) as [C1 C2].
  pose proof (sum_key _ _ _ _ H1 H2) as K. cbv zeta in *.
  set (M := (x1 * x2)%F) in *. set (N := (y1 * y2)%F) in *. set (E := (ed_d * M * N)%F) in *.
  replace (ed_d * (x1 * - x2) * N)%F with (- E)%F by (unfold E, M; ring).
  replace (N + x1 * - x2)%F with (N - M)%F by (unfold M; ring).
  assert (C3 : (fz 1 - - E)%F <> fz 0) by (intros X; apply C1; rewrite <- X; ring).
  assert (A : forall u v w z : F25, v <> fz 0 -> z <> fz 0 -> ((fz 1 - u / v) * (fz 1 - w / z) = (v - u) * (z - w) / (v * z))%F).
  { intros u v w z Hv Hz. field. auto. }
  assert (B : forall u v w z : F25, v <> fz 0 -> z <> fz 0 -> ((fz 1 + u / v) * (fz 1 + w / z) = (v + u) * (z + w) / (v * z))%F).
  { intros u v w z Hv Hz. field. auto. }
  rewrite A, B by assumption.
  assert (G : ((y1 + y2) * (y1 + y2) * ((fz 1 - E - (N + M)) * (fz 1 - - E - (N - M))) =
               (y1 - y2) * (y1 - y2) * ((fz 1 - E + (N + M)) * (fz 1 - - E + (N - M))))%F).
  { set (S := (y1 * y1 + y2 * y2)%F) in *.
    transitivity ((y1 - y2) * (y1 - y2) * ((fz 1 - E + (N + M)) * (fz 1 - - E + (N - M)))
       + (fz 1 + fz 1) * (fz 1 + fz 1) * (N * (fz 1 + N * N - E * E - M * M) - (S * N + E * M * S)))%F; [unfold S, N; ring|].
    assert (EMS : (E * M * S = N * (ed_d * (M * M) * S))%F) by (unfold E; ring). rewrite K, EMS. ring. }
  transitivity ((y1 + y2) * (y1 + y2) * ((fz 1 - E - (N + M)) * (fz 1 - - E - (N - M))) / ((fz 1 - E) * (fz 1 - - E)))%F; [field; auto|].
  rewrite G. field. auto.
Qed.

(** ** Differential addition *)
Lemma fint (a b : F25) : (a * b = fz 0)%F -> a = fz 0 \/ b = fz 0.
Proof. exact (fp25_integral a b). Qed.
Lemma sub0 (a b : F25) : (a - b = fz 0)%F -> a = b.
Proof. intros H. transitivity (a - b + b)%F; [ring|]. rewrite H. ring. Qed.
Lemma fz_ne (z : Z) : z mod p25 <> 0 -> fz z <> fz 0.
Proof. intros H E. apply H. assert (X : fval (fz z) = fval (fz 0)) by now rewrite E. exact X. Qed.
Lemma zero_y x1 x2 : ed_on (x1, fz 0) -> ed_on (x2, fz 0) ->
  let d := snd (ed_add (x1, fz 0) (ed_neg (x2, fz 0))) in d = fz 1 \/ d = (- fz 1)%F.
Proof.
  intros H1 H2. cbv zeta. change (ed_neg (x2, fz 0)) with (fp_opp x2, fz 0). rewrite ed_add_y.
  pose proof (on_eq _ _ H1) as E1. pose proof (on_eq _ _ H2) as E2.
  assert (A : forall x : F25, (ed_d * (x * x) * (fz 0 * fz 0) = fz 0 * fz 0 - x * x - fz 1)%F -> (x * x = - fz 1)%F).
  { intros x E. transitivity (fz 0 * fz 0 - fz 1 - (fz 0 * fz 0 - x * x - fz 1))%F; [ring|]. rewrite <- E. ring. }
  apply A in E1, E2.
  assert (X : ((x1 * x2 - fz 1) * (x1 * x2 + fz 1) = fz 0)%F).
  { transitivity ((x1 * x1) * (x2 * x2) - fz 1)%F; [ring|]. rewrite E1, E2. ring. }
  assert (V : ((fz 0 * fz 0 + x1 * - x2) / (fz 1 - ed_d * (x1 * - x2) * (fz 0 * fz 0)) = - (x1 * x2))%F).
  { replace (fz 1 - ed_d * (x1 * - x2) * (fz 0 * fz 0))%F with (fz 1) by ring.
    field. exact (fz_ne 1 ltac:(discriminate)). }
  rewrite V. destruct (fint _ _ X) as [Y|Y].
  - right. now rewrite (sub0 _ _ Y).
  - left. transitivity (fz 1 - (x1 * x2 + fz 1))%F; [ring|]. rewrite Y. ring.
Qed.
Lemma diff_add X1 Z1 X2 Z2 P Q u : ed_on P -> ed_on Q -> mp (X1, Z1) (snd P) -> mp (X2, Z2) (snd Q) ->
  let d := snd (ed_add P (ed_neg Q)) in d <> fz 1 -> (u * (fz 1 - d) = fz 1 + d)%F -> u <> fz 0 ->
  let a := ((X1 - Z1) * (X2 + Z2))%F in let b := ((X1 + Z1) * (X2 - Z2))%F in
  mp ((a + b) * (a + b), (a - b) * (a - b) * u)%F (snd (ed_add P Q)).
Proof.
  intros HP HQ (c1 & N1 & EX1 & EZ1) (c2 & N2 & EX2 & EZ2) d Nd Eu Nu. cbv zeta. cbn [fst snd] in *.
  pose proof (sum_diff P Q HP HQ) as K. cbv zeta in K. fold d in K.
  set (s := snd (ed_add P Q)) in *. set (y1 := snd P) in *. set (y2 := snd Q) in *.
  set (four := ((fz 1 + fz 1) * (fz 1 + fz 1) * (c1 * c2))%F).
  assert (N4 : four <> fz 0).
  { unfold four. repeat apply fp25_mul_ne; try exact two_ne0; assumption. }
  assert (A : ((X1 - Z1) * (X2 + Z2) = four * y1)%F) by (subst X1 Z1 X2 Z2; unfold four; ring).
  assert (B : ((X1 + Z1) * (X2 - Z2) = four * y2)%F) by (subst X1 Z1 X2 Z2; unfold four; ring).
  rewrite A, B. clear A B EX1 EZ1 EX2 EZ2. clearbody four.
  assert (D1 : (fz 1 - d)%F <> fz 0) by (intros E; apply Nd; symmetry; now apply sub0).
  apply mp_intro.
  - assert (G : ((y1 + y2) * (y1 + y2) * (fz 1 - s) = (y1 - y2) * (y1 - y2) * u * (fz 1 + s))%F).
    { transitivity ((y1 + y2) * (y1 + y2) * ((fz 1 - s) * (fz 1 - d)) / (fz 1 - d))%F; [field; exact D1|]. rewrite K, <- Eu. field. exact D1. }
    transitivity (four * four * ((y1 + y2) * (y1 + y2) * (fz 1 - s)))%F; [ring|]. rewrite G. ring.
  - destruct (fp_dec (y1 + y2)%F (fz 0)) as [E|E].
    2:{ left. replace (four * y1 + four * y2)%F with (four * (y1 + y2))%F by ring. repeat apply fp25_mul_ne; assumption. }
    destruct (fp_dec (y1 - y2)%F (fz 0)) as [E'|E'].
    2:{ right. replace (four * y1 - four * y2)%F with (four * (y1 - y2))%F by ring. repeat apply fp25_mul_ne; assumption. }
    exfalso. assert (Y1 : y1 = fz 0) by (apply half_eq; transitivity (y1 + y2 + (y1 - y2))%F; [ring|rewrite E, E'; ring]).
    assert (Y2 : y2 = fz 0) by (apply half_eq; transitivity (y1 + y2 - (y1 - y2))%F; [ring|rewrite E, E'; ring]).
    destruct P as [x1 y1'], Q as [x2 y2']. cbn [snd] in y1, y2. subst y1 y2 y1' y2'.
    destruct (zero_y x1 x2 HP HQ) as [Z|Z]; fold d in Z; [exact (Nd Z)|]. clearbody d. subst d.
    apply Nu. transitivity (u * (fz 1 - - fz 1) / (fz 1 + fz 1))%F; [field; exact two_ne0|]. rewrite Eu. field. exact two_ne0.
Qed.
(** ** Doubling *)
Lemma d_num : (fz 121666 * ed_d = - fz 121665)%F.
Proof.
  unfold ed_d. replace (fz (-121665)) with (- fz 121665)%F by (rewrite <- (fp_of_opp p25); reflexivity). field. apply fz_ne. vm_compute. discriminate.
Qed.
Lemma n121666 : fz 121666 = (fz 121665 + fz 1)%F.
Proof. rewrite <- fp_of_add. reflexivity. Qed.
Lemma dbl_key x y : ed_on (x, y) -> ((fz 1 + fz 121665 * (fz 1 - y * y)) * (fz 1 + x * x) = y * y)%F.
Proof.
  intros H. pose proof (on_eq _ _ H) as E. pose proof d_num as D. rewrite n121666 in D.
  assert (X : (fz 121665 * (x * x) * (y * y) = - ((fz 121665 + fz 1) * (y * y - x * x - fz 1)))%F).
  { rewrite <- E. transitivity (- (- fz 121665) * (x * x) * (y * y))%F; [ring|]. rewrite <- D. ring. }
  transitivity (fz 1 + x * x + fz 121665 * (fz 1 + x * x - y * y) - fz 121665 * (x * x) * (y * y))%F; [ring|]. rewrite X. ring.
Qed.
Lemma mont_dbl X Z P : ed_on P -> mp (X, Z) (snd P) ->
  let a := ((X + Z) * (X + Z))%F in let b := ((X - Z) * (X - Z))%F in
  mp (a * b, (a + (a - b) * fz 121665) * (a - b))%F (snd (ed_add P P)).
Proof.
  destruct P as [x y]. intros HP (c & Nc & EX & EZ). cbn [fst snd] in *. cbv zeta.
  set (f := ((fz 1 + fz 1) * (fz 1 + fz 1) * (c * c))%F).
  assert (Nf : f <> fz 0) by (unfold f; repeat apply fp25_mul_ne; try exact two_ne0; assumption).
  assert (A : ((X + Z) * (X + Z) = f)%F) by (subst X Z; unfold f; ring).
  assert (B : ((X - Z) * (X - Z) = f * (y * y))%F) by (subst X Z; unfold f; ring).
  rewrite A, B. clear A B EX EZ. clearbody f. rewrite ed_add_y.
  destruct (ed_complete _ _ _ _ HP HP) as [_ C]. cbv zeta in C. pose proof (on_eq _ _ HP) as E. rewrite E in *.
  pose proof (dbl_key _ _ HP) as K. apply mp_intro.
  - transitivity (f * f * (y * y) * ((fz 1 + fz 1) * (fz 1 - y * y)) / (fz 1 - (y * y - x * x - fz 1)))%F; [field; exact C|].
    rewrite <- K at 1.
    transitivity (f * f * (fz 1 - y * y) * (fz 1 + fz 121665 * (fz 1 - y * y)) * ((fz 1 + fz 1) * (fz 1 + x * x)) / (fz 1 - (y * y - x * x - fz 1)))%F; [field; exact C|].
    field. exact C.
  - destruct (fp_dec y (fz 0)) as [->|Ny].
    + right. replace ((f + (f - f * (fz 0 * fz 0)) * fz 121665) * (f - f * (fz 0 * fz 0)))%F with (f * f * (fz 121665 + fz 1))%F by ring.
      rewrite <- n121666. repeat apply fp25_mul_ne; try assumption. apply fz_ne. vm_compute. discriminate.
    + left. repeat apply fp25_mul_ne; assumption.
Qed.

(** ** The code *)
Definition mrep (s : xz) (P : ed_pt) : Prop := ed_on P /\ exists X Z, cr (fst s) X /\ cr (snd s) Z /\ mp (X, Z) (snd P).
Definition urep (f : long10) (D : ed_pt) : Prop := exists u, cw f u /\ u <> fz 0 /\ snd D <> fz 1 /\ (u * (fz 1 - snd D) = fz 1 + snd D)%F.
Lemma ed_add_on P Q : ed_on P -> ed_on Q -> ed_on (ed_add P Q).
Proof. intros H1 H2. exact (g_add _ _ _ _ _ ed_group P Q H1 H2). Qed.
Lemma montAdd_ok s1 s2 P Q f : mrep s1 P -> mrep s2 Q -> urep f (ed_add P (ed_neg Q)) ->
  mrep (cs_montAdd (cs_add (fst s1) (snd s1)) (cs_sub (fst s1) (snd s1)) (cs_add (fst s2) (snd s2)) (cs_sub (fst s2) (snd s2)) f) (ed_add P Q).
Proof.
  intros (HP & X1 & Z1 & a1 & b1 & M1) (HQ & X2 & Z2 & a2 & b2 & M2) (u & cu & Nu & Nd & Eu).
  split; [now apply ed_add_on|]. unfold cs_montAdd. cbv zeta. cbn [fst snd].
  pose proof (cr_add _ _ _ _ a1 b1) as t1. pose proof (cr_sub _ _ _ _ a1 b1) as t2.
  pose proof (cr_add _ _ _ _ a2 b2) as t3. pose proof (cr_sub _ _ _ _ a2 b2) as t4.
  pose proof (cr_mul _ _ _ _ (cr2_cw _ _ t2) (cr2_cw _ _ t3)) as ax.
  pose proof (cr_mul _ _ _ _ (cr2_cw _ _ t1) (cr2_cw _ _ t4)) as az.
  pose proof (cr_sqr _ _ (cr2_cw _ _ (cr_add _ _ _ _ ax az))) as rx.
  pose proof (cr_mul _ _ _ _ (cr_cw _ _ (cr_sqr _ _ (cr2_cw _ _ (cr_sub _ _ _ _ ax az)))) cu) as rz.
  eexists. eexists. split; [exact rx|]. split; [exact rz|].
  exact (diff_add X1 Z1 X2 Z2 P Q u HP HQ M1 M2 Nd Eu Nu).
Qed.
Lemma montDbl_ok s P : mrep s P -> mrep (cs_montDbl (cs_add (fst s) (snd s)) (cs_sub (fst s) (snd s))) (ed_add P P).
Proof.
  intros (HP & X & Z & a & b & M). split; [now apply ed_add_on|]. unfold cs_montDbl. cbv zeta. cbn [fst snd].
  pose proof (cr_sqr _ _ (cr2_cw _ _ (cr_add _ _ _ _ a b))) as t1. pose proof (cr_sqr _ _ (cr2_cw _ _ (cr_sub _ _ _ _ a b))) as t2.
  pose proof (cr_mul _ _ _ _ (cr_cw _ _ t1) (cr_cw _ _ t2)) as bx.
  pose proof (cr2_cw _ _ (cr_sub _ _ _ _ t1 t2)) as t3.
  pose proof (cr_small _ _ 121665 t3 ltac:(lia)) as bz.
  pose proof (cr_mul _ _ _ _ (cr2_cw _ _ (cr_add _ _ _ _ t1 bz)) t3) as rz.
  eexists. eexists. split; [exact bx|]. split; [exact rz|]. exact (mont_dbl X Z P HP M).
Qed.
Lemma mrep_u s P : mrep s P -> cr (cs_mul (fst s) (cs_recip (snd s))) (mont_u (snd P)).
Proof.
  intros (HP & X & Z & a & b & M). rewrite <- (mp_quot _ _ _ M). apply cr_mul; [now apply cr_cw|]. apply cr_cw, cr_recip. now apply cr_cw.
Qed.
Lemma urep_neg f D : urep f D -> urep f (ed_neg D).
Proof. destruct D as [x y]. intros H. exact H. Qed.

(** ** The base point *)
Lemma B_u : (fz 9 * (fz 1 - snd ed_B) = fz 1 + snd ed_B)%F.
Proof. unfold ed_B. cbn [snd]. rewrite <- fp_of_sub, <- fp_of_mul, <- fp_of_add. apply fp_of_eq. vm_compute. reflexivity. Qed.
Lemma B_ne1 : snd ed_B <> fz 1.
Proof. intros E. assert (H : fval (snd ed_B) = fval (fz 1)) by now rewrite E. vm_compute in H. discriminate H. Qed.
Lemma nine_ne : fz 9 <> fz 0. Proof. apply fz_ne. vm_compute. discriminate. Qed.
Global Opaque ed_B.
Lemma urep_B : urep (cs_set 9) ed_B.
Proof. exists (fz 9). split; [apply cr_cw, cr_set; lia|]. split; [exact nine_ne|]. split; [exact B_ne1|exact B_u]. Qed.
(** an x coordinate with Z = 1 *)
Lemma mrep_one f D u : cr f u -> ed_on D -> (u * (fz 1 - snd D) = fz 1 + snd D)%F -> mrep (f, cs_set 1) D.
Proof.
  intros H HD E. split; [exact HD|]. exists u, (fz 1). split; [exact H|]. split; [apply cr_set; lia|]. apply mp_intro; [rewrite E; ring|].
  right. apply fz_ne. discriminate.
Qed.
Lemma mrep_B : mrep (cs_set 9, cs_set 1) ed_B.
Proof. apply (mrep_one _ _ (fz 9)); [apply cr_set; lia|exact ed_B_on|exact B_u]. Qed.
Lemma mrep_O : mrep (cs_set 1, cs_set 0) ed_zero.
Proof.
  split; [exact (g_zero _ _ _ _ _ ed_group)|]. exists (fz 1), (fz 0). split; [apply cr_set; lia|]. split; [apply cr_set; lia|].
  change (snd ed_zero) with (fz 1). apply mp_intro; [ring|left]. apply fz_ne. discriminate.
Qed.

(** ** The ladder *)
Lemma mul_succ_sub n : ed_add (ed_mul (n + 1) ed_B) (ed_neg (ed_mul n ed_B)) = ed_B.
Proof.
  unfold ed_mul. rewrite <- (zmul_sub _ _ _ _ _ ed_group _ _ _ ed_B_on). replace (n + 1 - n) with 1 by lia. exact (zmul_1 _ _ _ _ _ ed_group _ ed_B_on).
Qed.
Lemma mul_sub_succ n : ed_add (ed_mul n ed_B) (ed_neg (ed_mul (n + 1) ed_B)) = ed_neg ed_B.
Proof.
  unfold ed_mul. rewrite <- (zmul_sub _ _ _ _ _ ed_group _ _ _ ed_B_on). replace (n - (n + 1)) with (Z.opp 1) by lia.
  rewrite (zmul_neg _ _ _ _ _ ed_group _ _ ed_B_on). now rewrite (zmul_1 _ _ _ _ _ ed_group _ ed_B_on).
Qed.
Lemma mul_add a b : ed_add (ed_mul a ed_B) (ed_mul b ed_B) = ed_mul (a + b) ed_B.
Proof. unfold ed_mul. now rewrite (zmul_add _ _ _ _ _ ed_group _ _ _ ed_B_on). Qed.
Definition lad (n : Z) (s : xz * xz) : Prop := mrep (fst s) (ed_mul n ed_B) /\ mrep (snd s) (ed_mul (n + 1) ed_B).
Lemma round_ok n b s : lad n s -> lad (2 * n + Z.b2z b) (cs_round (cs_set 9) b s).
Proof.
  destruct s as [s0 s1]. intros [H0 H1]. cbn [fst snd] in *. unfold cs_round. destruct b; cbv zeta.
  - assert (U : urep (cs_set 9) (ed_add (ed_mul n ed_B) (ed_neg (ed_mul (n + 1) ed_B)))).
    { rewrite mul_sub_succ. apply urep_neg, urep_B. }
    pose proof (montAdd_ok _ _ _ _ _ H0 H1 U) as A. pose proof (montDbl_ok _ _ H1) as D. rewrite mul_add in A, D.
    split; cbn [fst snd Z.b2z].
    + replace (2 * n + 1) with (n + (n + 1)) by lia. exact A.
    + replace (2 * n + 1 + 1) with (n + 1 + (n + 1)) by lia. exact D.
  - assert (U : urep (cs_set 9) (ed_add (ed_mul (n + 1) ed_B) (ed_neg (ed_mul n ed_B)))).
    { rewrite mul_succ_sub. apply urep_B. }
    pose proof (montAdd_ok _ _ _ _ _ H1 H0 U) as A. pose proof (montDbl_ok _ _ H0) as D. rewrite mul_add in A, D.
    split; cbn [fst snd Z.b2z].
    + replace (2 * n + 0) with (n + n) by lia. exact D.
    + replace (2 * n + 0 + 1) with (n + 1 + n) by lia. exact A.
Qed.
Lemma bit_of_ok k i : bytes_ok k -> bit_of k i = Z.testbit (le2z k) (Z.of_nat i).
Proof.
  intros H. rewrite le2z_bit by (assumption || lia). unfold bit_of. rewrite Nat2Z.inj_mod. f_equal. f_equal.
  change 8 with (Z.of_nat 8). now rewrite <- Nat2Z.inj_div, Nat2Z.id.
Qed.
Lemma div_step K i : (i < 256)%nat -> K / 2 ^ Z.of_nat (256 - S i) = 2 * (K / 2 ^ Z.of_nat (256 - i)) + Z.b2z (Z.testbit K (Z.of_nat (255 - i))).
Proof.
  intros H. replace (256 - S i)%nat with (255 - i)%nat by lia. set (j := (255 - i)%nat).
  replace (256 - i)%nat with (S j) by lia. rewrite Nat2Z.inj_succ, Z.pow_succ_r by lia.
  rewrite (Z.mul_comm 2 (2 ^ _)), <- Z.div_div by (try apply Z.pow_pos_nonneg; lia).
  rewrite Z.testbit_spec' by lia. apply Z.div_mod. discriminate.
Qed.
Lemma ladder_ok k : bytes_ok k -> length k = 32%nat -> lad (le2z k) (cs_ladder (cs_set 9) k).
Proof.
  intros HB HL. unfold cs_ladder, bits_of.
  assert (G : forall m, (m <= 256)%nat -> lad (le2z k / 2 ^ Z.of_nat (256 - m))
    (fold_left (fun s b => cs_round (cs_set 9) b s) (map (fun i => bit_of k (255 - i)) (seq 0 m)) ((cs_set 1, cs_set 0), (cs_set 9, cs_set 1)))).
  { induction m as [|m IH]; intros Hm.
    - cbn [seq map fold_left]. pose proof (le2z_bound k HB) as B. rewrite HL in B.
      assert (Z0 : le2z k / 2 ^ Z.of_nat (256 - 0) = 0) by (apply Z.div_small; exact B). rewrite Z0. split; cbn [fst snd].
      + exact mrep_O.
      + change (0 + 1) with 1. unfold ed_mul. rewrite (zmul_1 _ _ _ _ _ ed_group _ ed_B_on). exact mrep_B.
    - rewrite seq_S, map_app, fold_left_app. cbn [map fold_left]. rewrite div_step by lia. rewrite Nat.add_0_l, bit_of_ok by assumption.
      apply round_ok. apply IH. lia. }
  specialize (G 256%nat (le_n _)). change (256 - 256)%nat with 0%nat in G. change (2 ^ Z.of_nat 0) with 1 in G. rewrite Z.div_1_r in G. exact G.
Qed.
