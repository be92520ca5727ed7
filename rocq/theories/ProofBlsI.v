(** The base field and the quadratic extension of the BLS code as fields, for a
    build whose arithmetic, [square] excepted, is exact. *)
From Coq Require Import ZArith List Bool Lia Znumtheory Ring Field.
From Verif Require Import Base ModelBlsF SpecBls ProofBlsF ModelBls ProofBlsE SpecBlsG BlsPrime ProofBlsH Fp BlsFp2 BlsFrob.
Import ListNotations.
Local Open Scope Z_scope.

Notation p := bls_p.
Lemma p34 : p mod 4 = 3. Proof. Local Transparent bls_p. reflexivity. Local Opaque bls_p. Qed.
Lemma Kp1 : field_theory (fp_of p 0) (fp_of p 1) fp_add fp_mul fp_sub fp_opp fp_div fp_inv eq.
Proof. exact (fp_field p bls_p_prime). Qed.
Add Field KFI1 : Kp1.
Lemma Kp2 : field_theory (q2 p 0 0) (q2 p 1 0) q2_add q2_mul q2_sub q2_opp q2_div q2_inv eq.
Proof. exact (fp2_field p bls_p_prime p34). Qed.
Add Field KFI2 : Kp2.
Lemma p_gt0 : 0 < p. Proof. pose proof p_pos. lia. Qed.
Lemma fv_bound (a : fp p) : 0 <= fval a < p. Proof. apply fval_bound, p_gt0. Qed.
Lemma fv_mod (a : fp p) : fval a mod p = fval a. Proof. apply Z.mod_small, fv_bound. Qed.

Definition rep1 (x : fe) (a : fp p) : Prop := fe_of x (fval a).
Definition rep2 (x : fe2) (a : fp2 p) : Prop := rep1 (fst x) (fst a) /\ rep1 (snd x) (snd a).
Lemma rep1_of x v : fe_of x v -> rep1 x (fp_of p v).
Proof. intros H. unfold rep1. rewrite fval_of, Z.mod_small; [exact H|apply H]. Qed.
Lemma rep1_fun x a b : rep1 x a -> rep1 x b -> a = b.
Proof. intros A B. apply fp_eq. exact (fe_of_inj x _ _ A B). Qed.
Lemma rep1_inj x y a : rep1 x a -> rep1 y a -> x = y.
Proof. intros A B. exact (fe_of_eq x y _ A B). Qed.
Lemma rep1_6 x a : rep1 x a -> fe6 x /\ 0 <= bval x < p.
Proof. intros H. destruct (fe_of_in _ _ H) as [F6 B]. split; [exact F6|]. split; [apply fe6_val, F6|exact B]. Qed.
Lemma rep1_val x a : rep1 x a -> bval x mod p = (fval a * bls_R) mod p.
Proof. intros (_ & _ & _ & E). rewrite E. apply Z.mod_mod. pose proof p_gt0. lia. Qed.
Lemma rep1_val' x a : rep1 x a -> bval x = (fval a * bls_R) mod p.
Proof. intros (_ & _ & _ & E). exact E. Qed.
Lemma rep1_mk x (a : fp p) : fe6 x -> 0 <= bval x < p -> bval x mod p = (fval a * bls_R) mod p -> rep1 x a.
Proof.
  intros F6 B E. unfold rep1. rewrite <- (fv_mod a). apply fe_of_mk; [exact F6|apply Z.mod_small, B|exact E].
Qed.
Lemma rep1_check x v : fe6 x -> bval x <? p = true -> (bval x =? ((v mod p) * bls_R) mod p) = true -> rep1 x (fp_of p v).
Proof.
  intros F6 B E. apply Z.ltb_lt in B. apply Z.eqb_eq in E. pose proof (fe6_val x F6). apply rep1_mk; [exact F6|lia|].
  rewrite E, fval_of, Z.mod_mod by (pose proof p_gt0; lia). reflexivity.
Qed.
Ltac six_words := split; [reflexivity|repeat constructor; unfold B64; lia].
Local Transparent bls_p bls_R.
Lemma r1_rep : rep1 r1 (fp_of p 1).
Proof. apply rep1_check; [six_words| |]; vm_compute; reflexivity. Qed.
Lemma zero_rep : rep1 fb_zero (fp_of p 0).
Proof. apply rep1_check; [six_words| |]; vm_compute; reflexivity. Qed.
Lemma b1_rep : rep1 b_g1 (fp_of p 4).
Proof. apply rep1_check; [six_words| |]; vm_compute; reflexivity. Qed.
Lemma r2_rep : rep1 r2 (fp_of p bls_R).
Proof. apply rep1_check; [six_words| |]; vm_compute; reflexivity. Qed.
Lemma m1_rep : rep1 nonResidue1 (fp_of p (-1)).
Proof. apply rep1_check; [six_words| |]; vm_compute; reflexivity. Qed.
Local Opaque bls_p bls_R.

Section Rep.
Variable F : fbuild.
Hypothesis HF : exact_but_square F.
Lemma add_rep x y a b : rep1 x a -> rep1 y b -> rep1 (f_add F x y) (fp_add a b).
Proof using HF. intros A B. unfold rep1, fp_add. rewrite fval_of. exact (ex_add F HF _ _ _ _ A B). Qed.
Lemma sub_rep x y a b : rep1 x a -> rep1 y b -> rep1 (f_sub F x y) (fp_sub a b).
Proof using HF. intros A B. unfold rep1, fp_sub. rewrite fval_of. exact (ex_sub F HF _ _ _ _ A B). Qed.
Lemma neg_rep x a : rep1 x a -> rep1 (f_neg F x) (fp_opp a).
Proof using HF. intros A. unfold rep1, fp_opp. rewrite fval_of. exact (ex_neg F HF _ _ A). Qed.
Lemma double_rep x a : rep1 x a -> rep1 (f_double F x) (fp_add a a).
Proof using HF.
  intros A. unfold rep1, fp_add. rewrite fval_of. replace (fval a + fval a) with (2 * fval a) by ring. exact (ex_double F HF _ _ A).
Qed.
(** the first factor need not be reduced *)
Lemma mul_rep' x y (a b : fp p) : fe6 x -> bval x mod p = (fval a * bls_R) mod p -> rep1 y b -> rep1 (f_mul F x y) (fp_mul a b).
Proof using HF.
  intros Fx Ex B. destruct (rep1_6 _ _ B) as [Fy By]. destruct (ex_mul F HF x y Fx Fy (proj2 By)) as (Fr & Br & Er).
  unfold rep1, fp_mul. rewrite fval_of. apply (mul_gen _ x y _ _ Fr Br Er); [exact Ex|]. exact (rep1_val _ _ B).
Qed.
Lemma mul_rep x y a b : rep1 x a -> rep1 y b -> rep1 (f_mul F x y) (fp_mul a b).
Proof using HF. intros A B. apply mul_rep'; [apply (rep1_6 _ _ A)|exact (rep1_val _ _ A)|exact B]. Qed.
Lemma iszero_rep x a : rep1 x a -> fb_iszero x = if fp_dec a (fp_of p 0) then true else false.
Proof using.
  intros A. rewrite fb_iszero_spec by apply (rep1_6 _ _ A). destruct (fp_dec a (fp_of p 0)) as [->|N].
  - apply Z.eqb_eq. pose proof (rep1_inj _ _ _ A zero_rep) as E. rewrite E. reflexivity.
  - apply Z.eqb_neq. intros E. apply N. apply (rep1_fun x); [exact A|].
    replace x with fb_zero; [exact zero_rep|]. destruct (rep1_6 _ _ A) as [[L W] _]. apply bval_inj; [rewrite L; reflexivity|apply zero6|exact W|]. rewrite E. reflexivity.
Qed.
Lemma equal_rep x y a b : rep1 x a -> rep1 y b -> fe_Equals x y = if fp_dec a b then true else false.
Proof using.
  intros A B. destruct (fp_dec a b) as [->|N].
  - apply Equals_spec. exact (rep1_inj _ _ _ A B).
  - destruct (fe_Equals x y) eqn:E; [|reflexivity]. apply Equals_spec in E. subst y. exfalso. exact (N (rep1_fun _ _ _ A B)).
Qed.
Lemma inverse_rep x a : rep1 x a -> a <> fp_of p 0 -> rep1 (inverse F x) (fp_div (fp_of p 1) a).
Proof using HF.
  intros A N. destruct (rep1_6 _ _ A) as [F6 B].
  assert (N0 : bval x <> 0).
  { intros E. apply N. pose proof (iszero_rep _ _ A) as Z. rewrite fb_iszero_spec, E in Z by exact F6. destruct (fp_dec a (fp_of p 0)); [assumption|discriminate]. }
  destruct (inverse_raw F HF x F6 ltac:(lia)) as (Fi & Bi & Ei).
  set (c := fp_of p ((bval (inverse F x) * bls_Ri) mod p)).
  assert (C : rep1 (inverse F x) c) by (apply rep1_of, fe_of_ex; [exact Fi|lia]).
  replace (fp_div (fp_of p 1) a) with c; [exact C|].
  assert (M : fp_mul a c = fp_of p 1).
  { pose proof p_gt0 as P0.
    assert (M : (bls_R * (bls_R * (fval a * fval c))) mod p = (bls_R * (bls_R * 1)) mod p).
    { replace (bls_R * (bls_R * (fval a * fval c))) with (fval a * bls_R * (fval c * bls_R)) by ring.
      rewrite Z.mul_mod, <- (rep1_val _ _ A), <- (rep1_val _ _ C), <- Z.mul_mod by lia. rewrite Ei, Z.mul_1_r. reflexivity. }
    apply R_cancel, R_cancel in M. apply fp_of_eq in M. exact M. }
  transitivity (fp_div (fp_mul a c) a); [field; exact N|]. rewrite M. reflexivity.
Qed.
(** ** Numbers and bytes *)
Lemma fromMont_val x a : rep1 x a -> fe6 (fromMont F x) /\ bval (fromMont F x) = fval a.
Proof using HF.
  intros A. destruct (rep1_6 _ _ A) as [F6 B]. unfold fromMont. pose proof p_pos as P0.
  destruct (ex_mul F HF x [1; 0; 0; 0; 0; 0] F6 one6 ltac:(change (bval [1; 0; 0; 0; 0; 0]) with 1; lia)) as (Fr & Br & Er).
  split; [exact Fr|]. change (bval [1; 0; 0; 0; 0; 0]) with 1 in Er. rewrite Z.mul_1_r, (rep1_val _ _ A), (Z.mul_comm (fval a)) in Er.
  apply R_cancel in Er. rewrite fv_mod, Z.mod_small in Er by exact Br. exact Er.
Qed.
Lemma neg_raw x : fe6 x -> bval x < p -> fe6 (f_neg F x) /\ bval (f_neg F x) = (- bval x) mod p.
Proof using HF.
  intros F6 B. pose proof p_gt0 as P0.
  assert (A : rep1 x (fp_of p ((bval x * bls_Ri) mod p))) by (apply rep1_of, fe_of_ex; [exact F6|lia]).
  pose proof (neg_rep _ _ A) as N. destruct (rep1_6 _ _ N) as [Fn Bn]. split; [exact Fn|].
  set (a := fp_of p _) in *. clearbody a.
  rewrite (rep1_val' _ _ N). unfold fp_opp. rewrite fval_of, Z.mul_mod_idemp_l by lia.
  rewrite (rep1_val' _ _ A). rewrite <- (Z.sub_0_l ((fval a * bls_R) mod p)), Zminus_mod_idemp_r. f_equal. ring.
Qed.
(** the "sign" of the serialised form: true for the smaller of v and -v *)
Definition small1 (a : fp p) : bool := 2 * fval a <? p.
Lemma signBE_rep x a : rep1 x a -> signBE F x = small1 a.
Proof using HF.
  intros A. unfold signBE, small1. destruct (fromMont_val _ _ A) as [F6 V]. pose proof (fv_bound a) as B. pose proof p_odd as PO.
  destruct (neg_raw _ F6 ltac:(lia)) as [Fn Vn]. rewrite (Cmp_spec _ _ Fn F6), Vn, V.
  destruct (Z.eq_dec (fval a) 0) as [E|E].
  - rewrite E, Z.mul_0_r. cbn [Z.opp]. rewrite Z.mod_0_l by lia. cbn. symmetry. apply Z.ltb_lt. lia.
  - assert (M : (- fval a) mod p = p - fval a).
    { rewrite <- (Z.mod_add (- fval a) 1 p) by lia. rewrite Z.mod_small; lia. }
    rewrite M. destruct (Z.ltb_spec (2 * fval a) p).
    + rewrite (proj2 (Z.compare_gt_iff _ _)); [reflexivity|lia].
    + rewrite (proj2 (Z.compare_lt_iff _ _)); [reflexivity|].
      assert (2 * fval a <> p) by (intros Q; rewrite <- Q, Z.even_mul in PO; discriminate). lia.
Qed.
Lemma small1_neg a : a <> fp_of p 0 -> small1 (fp_opp a) = negb (small1 a).
Proof using.
  intros N. unfold small1, fp_opp. rewrite fval_of. pose proof (fv_bound a) as B. pose proof p_odd as PO.
  assert (E : fval a <> 0). { intros E. apply N. rewrite <- (fp_of_val p a), E. reflexivity. }
  assert (M : (- fval a) mod p = p - fval a).
  { rewrite <- (Z.mod_add (- fval a) 1 p) by lia. rewrite Z.mod_small; lia. }
  rewrite M. assert (2 * fval a <> p) by (intros Q; rewrite <- Q, Z.even_mul in PO; discriminate).
  destruct (Z.ltb_spec (2 * fval a) p), (Z.ltb_spec (2 * (p - fval a)) p); try reflexivity; lia.
Qed.
Lemma skip_skip {A} m n (l : list A) : skipn m (skipn n l) = skipn (m + n) l.
Proof using.
  revert l. induction n as [|n IH]; intros l; [rewrite Nat.add_0_r; reflexivity|].
  destruct l; [rewrite !skipn_nil; reflexivity|]. rewrite Nat.add_succ_r. cbn [skipn]. apply IH.
Qed.
Lemma FromBytes_spec b : bytes_ok b -> length b = 48%nat -> fe6 (fe_FromBytes b) /\ bval (fe_FromBytes b) = be2z b.
Proof using.
  intros O L. unfold fe_FromBytes. cbn [seq map Nat.mul Nat.sub Nat.add].
  assert (W : forall n, (n + 8 <= 48)%nat -> 0 <= be2z (firstn 8 (skipn n b)) < B64).
  { intros n Hn. pose proof (be2z_bound (firstn 8 (skipn n b)) ltac:(apply bytes_ok_firstn, bytes_ok_skipn, O)) as H.
    rewrite firstn_length, skipn_length, L in H. replace (Nat.min 8 (48 - n)) with 8%nat in H by lia. exact H. }
  split.
  - split; [reflexivity|]. repeat (constructor; [apply W; lia|]). constructor.
  - assert (S : forall n k, (n + 8 + k = 48)%nat -> be2z (skipn n b) = be2z (firstn 8 (skipn n b)) * 256 ^ Z.of_nat k + be2z (skipn (8 + n) b)).
    { intros n k Hk. rewrite <- (firstn_skipn 8 (skipn n b)) at 1. rewrite be2z_app, !skip_skip, skipn_length, L. do 3 f_equal. f_equal. lia. }
    transitivity (be2z (skipn 0 b)); [|reflexivity].
    pose proof (S 0 40 eq_refl)%nat as S0. pose proof (S 8 32 eq_refl)%nat as S1. pose proof (S 16 24 eq_refl)%nat as S2.
    pose proof (S 24 16 eq_refl)%nat as S3. pose proof (S 32 8 eq_refl)%nat as S4. cbn [Nat.add] in S0, S1, S2, S3, S4.
    rewrite S0, S1, S2, S3, S4. clear S S0 S1 S2 S3 S4.
    rewrite (firstn_all2 (skipn 40 b)) by (rewrite skipn_length, L; lia).
    cbn [bval]. change (256 ^ Z.of_nat 40) with (B64 * (B64 * (B64 * (B64 * B64)))).
    change (256 ^ Z.of_nat 32) with (B64 * (B64 * (B64 * B64))). change (256 ^ Z.of_nat 24) with (B64 * (B64 * B64)).
    change (256 ^ Z.of_nat 16) with (B64 * B64). change (256 ^ Z.of_nat 8) with B64. generalize B64. intros. ring.
Qed.
Lemma Bytes_val : forall e, Forall (fun w => 0 <= w < B64) e -> bytes_ok (fe_Bytes e) /\ length (fe_Bytes e) = (8 * length e)%nat /\ be2z (fe_Bytes e) = bval e.
Proof using.
  unfold fe_Bytes. induction e as [|x e IH]; intros W; [repeat split; constructor|].
  inversion_clear W as [|? ? Hx We]. destruct (IH We) as (O & L & V). cbn [rev]. rewrite flat_map_app. cbn [flat_map]. rewrite app_nil_r.
  split; [apply bytes_ok_app; [exact O|apply z2be_ok]|]. rewrite app_length, L, z2be_length. split; [cbn [length]; lia|].
  rewrite be2z_app, z2be_length, V, be2z_z2be. change (256 ^ Z.of_nat 8) with B64. rewrite Z.mod_small by exact Hx. cbn [bval]. ring.
Qed.
Definition enc1 (a : fp p) : bytes := z2be 48 (fval a).
Lemma p_256 : p < 256 ^ Z.of_nat 48 /\ p < 32 * 256 ^ Z.of_nat 47.
Proof using. Local Transparent bls_p. split; reflexivity. Local Opaque bls_p. Qed.
Lemma toBytes_rep x a : rep1 x a -> toBytes F x = enc1 a.
Proof using HF.
  intros A. unfold toBytes, enc1. destruct (fromMont_val _ _ A) as [[L W] V]. destruct (Bytes_val _ W) as (O & L' & V').
  rewrite <- V, <- V', <- (z2be_be2z _ O) at 1. rewrite L', L. reflexivity.
Qed.
Lemma enc1_val a : be2z (enc1 a) = fval a.
Proof using. unfold enc1. rewrite be2z_z2be. apply Z.mod_small. pose proof (fv_bound a). pose proof p_256. lia. Qed.
Lemma fromBytes_rep b : bytes_ok b -> length b = 48%nat ->
  match fromBytes F b with Some x => exists a, rep1 x a /\ enc1 a = b | None => forall a, enc1 a <> b end.
Proof using HF.
  intros O L. unfold fromBytes. rewrite L. cbn [Nat.eqb negb]. destruct (FromBytes_spec b O L) as [F6 V].
  unfold fe_valid. rewrite (Cmp_spec _ _ F6 q_fe6), q_val, V. pose proof p_gt0 as P0.
  assert (B0 : 0 <= be2z b) by apply (be2z_bound _ O).
  destruct (Z.compare_spec (be2z b) p) as [C|C|C]; cbn [Z.eqb Pos.eqb].
  1,3: intros a E; rewrite <- E, enc1_val in C; pose proof (fv_bound a); lia.
  exists (fp_of p (be2z b)). split.
  - destruct (rep1_6 _ _ r2_rep) as [F2 B2]. destruct (ex_mul F HF _ _ F6 F2 (proj2 B2)) as (Fr & Br & Er).
    apply rep1_mk; [exact Fr|exact Br|]. rewrite fval_of, Z.mul_mod_idemp_l by lia. apply R_cancel. rewrite Er, V.
    rewrite <- Z.mul_mod_idemp_r, (rep1_val _ _ r2_rep), fval_of, Z.mul_mod_idemp_l, Z.mul_mod_idemp_r by lia. f_equal. ring.
  - unfold enc1. rewrite fval_of, Z.mod_small by lia. rewrite <- L. apply z2be_be2z, O.
Qed.
(** ** Powers and square roots *)
Notation pw1 := (pw (fp p) (fp_of p 1) fp_mul).
Notation pw2 := (pw (fp2 p) (q2 p 1 0) q2_mul).
Let pw1_add := pw_add (fp p) _ _ _ _ _ _ _ _ Kp1.
Let pw2_add := pw_add (fp2 p) _ _ _ _ _ _ _ _ Kp2.
Lemma exp_rep x a : rep1 x a -> forall e, rep1 (exp_pos F x e) (pw1 a (Pos.to_nat e)).
Proof using HF.
  intros A. induction e as [e IH|e IH|]; cbn [exp_pos].
  - rewrite Pos2Nat.inj_xI. replace (S (2 * Pos.to_nat e)) with (Pos.to_nat e + Pos.to_nat e + 1)%nat by lia.
    rewrite !pw1_add. cbn [pw]. replace (fp_mul a (fp_of p 1)) with a by ring. repeat apply mul_rep; assumption.
  - rewrite Pos2Nat.inj_xO. replace (2 * Pos.to_nat e)%nat with (Pos.to_nat e + Pos.to_nat e)%nat by lia.
    rewrite !pw1_add. apply mul_rep; assumption.
  - change (Pos.to_nat 1) with 1%nat. cbn [pw].
    replace (fp_mul a (fp_of p 1)) with (fp_mul (fp_mul (fp_mul (fp_of p 1) (fp_of p 1)) (fp_mul (fp_of p 1) (fp_of p 1))) a) by ring.
    repeat apply mul_rep; exact r1_rep || exact A.
Qed.
(** ** F_p(i) *)
Lemma rep2_fun x a b : rep2 x a -> rep2 x b -> a = b.
Proof using. intros [A A'] [B B']. destruct a, b. f_equal; eapply rep1_fun; eassumption. Qed.
Lemma rep2_inj x y a : rep2 x a -> rep2 y a -> x = y.
Proof using. intros [A A'] [B B']. destruct x, y. f_equal; eapply rep1_inj; eassumption. Qed.
Lemma add2_rep x y a b : rep2 x a -> rep2 y b -> rep2 (fp2_add F x y) (q2_add a b).
Proof using HF. intros [A A'] [B B']. split; apply add_rep; assumption. Qed.
Lemma sub2_rep x y a b : rep2 x a -> rep2 y b -> rep2 (fp2_sub F x y) (q2_sub a b).
Proof using HF. intros [A A'] [B B']. split; apply sub_rep; assumption. Qed.
Lemma neg2_rep x a : rep2 x a -> rep2 (fp2_neg F x) (q2_opp a).
Proof using HF. intros [A A']. split; apply neg_rep; assumption. Qed.
Lemma double2_rep x a : rep2 x a -> rep2 (fp2_double F x) (q2_add a a).
Proof using HF. intros [A A']. split; apply double_rep; assumption. Qed.
Lemma mul2_rep x y a b : rep2 x a -> rep2 y b -> rep2 (fp2_mul F x y) (q2_mul a b).
Proof using HF.
  intros [A A'] [B B']. unfold fp2_mul, q2_mul. cbv zeta. split; cbn [fst snd].
  - apply sub_rep; apply mul_rep; assumption.
  - replace (fp_add (fp_mul (fst a) (snd b)) (fp_mul (snd a) (fst b))) with
      (fp_sub (fp_mul (fp_add (fst a) (snd a)) (fp_add (fst b) (snd b))) (fp_add (fp_mul (fst a) (fst b)) (fp_mul (snd a) (snd b)))) by ring.
    apply sub_rep; [apply mul_rep; apply add_rep; assumption|]. apply add_rep; apply mul_rep; assumption.
Qed.
Lemma square2_rep x a : rep2 x a -> rep2 (fp2_square F x) (q2_mul a a).
Proof using HF.
  intros [A A']. destruct (rep1_6 _ _ A) as [F0 B0], (rep1_6 _ _ A') as [F1 B1]. pose proof p_2R as PR. pose proof p_gt0 as P0.
  unfold fp2_square, q2_mul. cbv zeta. split; cbn [fst snd].
  - destruct (ex_ladd F HF _ _ F0 F1 ltac:(lia)) as [Fl Vl].
    replace (fp_sub (fp_mul (fst a) (fst a)) (fp_mul (snd a) (snd a))) with (fp_mul (fp_add (fst a) (snd a)) (fp_sub (fst a) (snd a))) by ring.
    apply mul_rep'; [exact Fl| |apply sub_rep; assumption].
    rewrite Vl, Z.add_mod, (rep1_val _ _ A), (rep1_val _ _ A'), <- Z.add_mod by lia. unfold fp_add. rewrite fval_of, Z.mul_mod_idemp_l by lia. f_equal. ring.
  - destruct (ex_ldouble F HF _ F0 ltac:(lia)) as [Fl Vl].
    replace (fp_add (fp_mul (fst a) (snd a)) (fp_mul (snd a) (fst a))) with (fp_mul (fp_add (fst a) (fst a)) (snd a)) by ring.
    apply mul_rep'; [exact Fl| |assumption].
    rewrite Vl, <- Z.mul_mod_idemp_r, (rep1_val _ _ A), Z.mul_mod_idemp_r by lia. unfold fp_add. rewrite fval_of, Z.mul_mod_idemp_l by lia. f_equal. ring.
Qed.
Lemma iszero2_rep x a : rep2 x a -> fp2_isZero x = if q2_dec a (q2 p 0 0) then true else false.
Proof using.
  intros [A A']. unfold fp2_isZero. rewrite (iszero_rep _ _ A), (iszero_rep _ _ A'). destruct a as [c d]. cbn [fst snd].
  unfold q2. destruct (q2_dec _ _) as [E|N]; destruct (fp_dec c (fp_of p 0)), (fp_dec d (fp_of p 0)); try reflexivity; congruence.
Qed.
Lemma equal2_rep x y a b : rep2 x a -> rep2 y b -> fp2_equal x y = if q2_dec a b then true else false.
Proof using.
  intros [A A'] [B B']. unfold fp2_equal. rewrite (equal_rep _ _ _ _ A B), (equal_rep _ _ _ _ A' B'). destruct a as [c d], b as [e f]. cbn [fst snd].
  destruct (q2_dec _ _) as [E|N]; destruct (fp_dec c e), (fp_dec d f); try reflexivity; congruence.
Qed.
Lemma inverse2_rep x a : sq_ok F (fst x) -> sq_ok F (snd x) -> rep2 x a -> a <> q2 p 0 0 -> rep2 (fp2_inverse F x) (q2_div (q2 p 1 0) a).
Proof using HF.
  intros S0 S1 [A A'] N.
  assert (Q : forall z c, sq_ok F z -> rep1 z c -> rep1 (f_square F z) (fp_mul c c)).
  { intros z c S Z. unfold rep1, fp_mul. rewrite fval_of. apply S, Z. }
  assert (Nn : q2_norm a <> fp_of p 0) by (intros E; apply N, (norm_0 p bls_p_prime p34), E).
  pose proof (inverse_rep _ _ (add_rep _ _ _ _ (Q _ _ S0 A) (Q _ _ S1 A')) Nn) as I.
  assert (E : q2_div (q2 p 1 0) a = (fp_mul (fst a) (fp_div (fp_of p 1) (q2_norm a)), fp_opp (fp_mul (fp_div (fp_of p 1) (q2_norm a)) (snd a)))).
  { transitivity (q2_inv a); [field; exact N|]. unfold q2_inv. f_equal; field; exact Nn. }
  rewrite E. unfold fp2_inverse. cbv zeta. split; cbn [fst snd]; [apply mul_rep; assumption|]. apply neg_rep, mul_rep; assumption.
Qed.
Lemma one2_rep : rep2 fp2_one (q2 p 1 0). Proof using. split; [exact r1_rep|exact zero_rep]. Qed.
Lemma zero2_rep : rep2 fp2_zero (q2 p 0 0). Proof using. split; exact zero_rep. Qed.
Lemma b2_rep : rep2 b_g2 (q2 p 4 4). Proof using. split; exact b1_rep. Qed.
Lemma minus2_rep : rep2 negativeOne2 (q2_opp (q2 p 1 0)).
Proof using.
  split; cbn [fst snd q2_opp q2 negativeOne2].
  - rewrite <- fp_of_opp. exact m1_rep.
  - rewrite <- fp_of_opp. exact zero_rep.
Qed.
Lemma exp2_rep x a : rep2 x a -> forall e, rep2 (fp2_exp_pos F x e) (pw2 a (Pos.to_nat e)).
Proof using HF.
  intros A. induction e as [e IH|e IH|]; cbn [fp2_exp_pos].
  - rewrite Pos2Nat.inj_xI. replace (S (2 * Pos.to_nat e)) with (Pos.to_nat e + Pos.to_nat e + 1)%nat by lia.
    rewrite !pw2_add. cbn [pw]. replace (q2_mul a (q2 p 1 0)) with a by ring. apply mul2_rep; [apply square2_rep|]; assumption.
  - rewrite Pos2Nat.inj_xO. replace (2 * Pos.to_nat e)%nat with (Pos.to_nat e + Pos.to_nat e)%nat by lia.
    rewrite !pw2_add. apply square2_rep; assumption.
  - change (Pos.to_nat 1) with 1%nat. cbn [pw].
    replace (q2_mul a (q2 p 1 0)) with (q2_mul (q2_mul (q2 p 1 0) (q2 p 1 0)) a) by ring.
    apply mul2_rep; [apply square2_rep; exact one2_rep|exact A].
Qed.
Lemma to_pos_nat z : 0 < z -> Pos.to_nat (Z.to_pos z) = Z.to_nat z.
Proof using. intros H. destruct z; [lia|reflexivity|lia]. Qed.
Local Transparent bls_p.
Lemma exp34_z : pMinus3Over4 = (p - 3) / 4. Proof using. reflexivity. Qed.
Lemma exp12_z : pMinus1Over2 = (p - 1) / 2. Proof using. reflexivity. Qed.
Local Opaque bls_p.
Lemma exp34 : Pos.to_nat (Z.to_pos pMinus3Over4) = e34 p.
Proof using. rewrite to_pos_nat by reflexivity. unfold e34. rewrite <- exp34_z. reflexivity. Qed.
Lemma exp12 : Pos.to_nat (Z.to_pos pMinus1Over2) = e12 p.
Proof using. rewrite to_pos_nat by reflexivity. unfold e12. rewrite <- exp12_z. reflexivity. Qed.
Lemma fp2_exp_34 x : fp2_exp F x pMinus3Over4 = fp2_exp_pos F x (Z.to_pos pMinus3Over4). Proof using. reflexivity. Qed.
Lemma fp2_exp_12 x : fp2_exp F x pMinus1Over2 = fp2_exp_pos F x (Z.to_pos pMinus1Over2). Proof using. reflexivity. Qed.
Lemma sqrt2_rep x a : rep2 x a ->
  (forall y, fp2_sqrt F x = (y, true) -> exists b, rep2 y b /\ q2_mul b b = a) /\
  ((exists b, q2_mul b b = a) -> snd (fp2_sqrt F x) = true).
Proof using HF.
  intros A. unfold fp2_sqrt. rewrite fp2_exp_34, fp2_exp_12. cbv zeta.
  pose proof (exp2_rep _ _ A (Z.to_pos pMinus3Over4)) as A1. rewrite exp34 in A1. fold (s_a1 p a) in A1.
  set (x1 := fp2_exp_pos F x (Z.to_pos pMinus3Over4)) in *. clearbody x1.
  pose proof (mul2_rep _ _ _ _ (square2_rep _ _ A1) A) as AL. fold (s_alpha p a) in AL.
  pose proof (mul2_rep _ _ _ _ A1 A) as AX. fold (s_x0 p a) in AX.
  rewrite (equal2_rep _ _ _ _ AL minus2_rep).
  destruct (q2_dec (s_alpha p a) (q2_opp (q2 p 1 0))) as [E|N].
  - split; [|reflexivity]. intros y H. apply pair_equal_spec in H. destruct H as [<- _].
    exists (q2_mul (ii p) (s_x0 p a)). split; [|apply (sqrt_i p bls_p_prime p34), E].
    replace (q2_mul (ii p) (s_x0 p a)) with (fp_opp (snd (s_x0 p a)), fst (s_x0 p a)).
    + destruct AX as [X0 X1]. split; cbn [fst snd]; [apply neg_rep; exact X1|exact X0].
    + unfold ii, q2, q2_mul. cbn [fst snd]. f_equal; ring.
  - pose proof (exp2_rep _ _ (add2_rep _ _ _ _ AL one2_rep) (Z.to_pos pMinus1Over2)) as AE. rewrite exp12 in AE.
    pose proof (mul2_rep _ _ _ _ AE AX) as AC. set (c := q2_mul _ _) in AC.
    rewrite (equal2_rep _ _ _ _ (square2_rep _ _ AC) A). cbn [snd]. split.
    + intros y H. apply pair_equal_spec in H. destruct H as [<- H]. destruct (q2_dec (q2_mul c c) a) as [E|]; [|discriminate].
      exists c. split; assumption.
    + intros [b Eb]. destruct (q2_dec (q2_mul c c) a) as [|Q]; [reflexivity|]. exfalso. apply Q.
      exact (sqrt_c p bls_p_prime p34 a b Eb N).
Qed.
Definition small2 (a : fp2 p) : bool := if fp_dec (snd a) (fp_of p 0) then small1 (fst a) else small1 (snd a).
Lemma signBE2_rep x a : rep2 x a -> fp2_signBE F x = small2 a.
Proof using HF.
  intros [A A']. unfold fp2_signBE, small2. rewrite (iszero_rep _ _ A'). destruct (fp_dec (snd a) (fp_of p 0)); cbn [negb]; apply signBE_rep; assumption.
Qed.
Lemma small2_neg a : a <> q2 p 0 0 -> small2 (q2_opp a) = negb (small2 a).
Proof using.
  intros N. unfold small2. destruct a as [c d]. cbn [fst snd q2_opp].
  destruct (fp_dec d (fp_of p 0)) as [->|Nd].
  - replace (fp_opp (fp_of p 0)) with (fp_of p 0) by ring. destruct (fp_dec (fp_of p 0) (fp_of p 0)); [|congruence].
    apply small1_neg. intros ->. apply N. reflexivity.
  - destruct (fp_dec (fp_opp d) (fp_of p 0)) as [E|_].
    + exfalso. apply Nd. transitivity (fp_opp (fp_opp d)); [ring|]. rewrite E. ring.
    + apply small1_neg, Nd.
Qed.
Definition enc2 (a : fp2 p) : bytes := enc1 (snd a) ++ enc1 (fst a).
Lemma toBytes2_rep x a : rep2 x a -> fp2_toBytes F x = enc2 a.
Proof using HF. intros [A A']. unfold fp2_toBytes, enc2. rewrite (toBytes_rep _ _ A), (toBytes_rep _ _ A'). reflexivity. Qed.
Lemma enc1_len a : length (enc1 a) = 48%nat. Proof using. apply z2be_length. Qed.
Lemma fromBytes2_rep b : bytes_ok b -> length b = 96%nat ->
  match fp2_fromBytes F b with Some x => exists a, rep2 x a /\ enc2 a = b | None => forall a, enc2 a <> b end.
Proof using HF.
  intros O L. unfold fp2_fromBytes. rewrite L. cbn [Nat.eqb negb].
  pose proof (fromBytes_rep (firstn 48 b) ltac:(apply bytes_ok_firstn, O) ltac:(rewrite firstn_length, L; reflexivity)) as H0.
  pose proof (fromBytes_rep (skipn 48 b) ltac:(apply bytes_ok_skipn, O) ltac:(rewrite skipn_length, L; reflexivity)) as H1.
  assert (SP : forall a, enc2 a = b -> enc1 (snd a) = firstn 48 b /\ enc1 (fst a) = skipn 48 b).
  { intros a <-. unfold enc2. pose proof (enc1_len (snd a)) as EL. split.
    - rewrite firstn_app, EL, firstn_all2, Nat.sub_diag, firstn_O, app_nil_r by lia. reflexivity.
    - rewrite skipn_app, EL, skipn_all2, Nat.sub_diag by lia. reflexivity. }
  destruct (fromBytes F (firstn 48 b)) as [c1|]; [destruct (fromBytes F (skipn 48 b)) as [c0|]|].
  - destruct H0 as (a1 & R1 & E1), H1 as (a0 & R0 & E0). exists (a0, a1). split; [split; assumption|]. unfold enc2. cbn [fst snd]. rewrite E0, E1. apply firstn_skipn.
  - intros a E. destruct (SP a E) as [_ E0]. exact (H1 _ E0).
  - intros a E. destruct (SP a E) as [E1 _]. exact (H0 _ E1).
Qed.
End Rep.
