(** The groups G1 and G2 of the BLS code. *)
From Coq Require Import ZArith List Bool Lia Znumtheory Ring Field.
From Verif Require Import Base ModelBlsF SpecBls ProofBlsF ModelBls ProofBlsE SpecBlsG BlsPrime ProofBlsH Fp BlsFp2 BlsFrob ProofBlsI Weier Jac Group ProofBlsG SpecBlsSig.
Import ListNotations.
Local Open Scope Z_scope.

(** ** The portable build *)
Lemma six_is x : six x <-> fe6 x. Proof. reflexivity. Qed.
Lemma portable_exact : exact_but_square portable.
Proof.
  constructor; cbn [portable f_add f_sub f_mul f_double f_neg f_ladd f_ldouble f_lsub].
  - exact pb_add.
  - exact pb_sub.
  - exact pb_neg.
  - exact pb_double.
  - intros x y Hx Hy B. exact (fb_mul_raw x y Hx Hy B).
  - intros x y Hx Hy B. exact (ladd_raw x y Hx Hy B).
  - intros x Hx B. unfold fb_ldouble. replace (2 * bval x) with (bval x + bval x) by ring. apply ladd_raw; try assumption. lia.
  - intros x y Hx Hy B. unfold fb_lsub. destruct (subb x y 0) as [r k] eqn:E. cbn [fst].
    destruct (subb_spec _ _ _ _ _ E) as (Wr & Lr & K & Vr); [rewrite (proj1 Hx), (proj1 Hy); reflexivity|apply Hx|apply Hy|lia|].
    assert (F6 : fe6 r) by (split; [rewrite Lr; apply Hx|exact Wr]). split; [exact F6|].
    rewrite (proj1 Hx), R_pow in Vr. pose proof (fe6_val _ F6) as V. pose proof (fe6_val _ Hx). pose proof (fe6_val _ Hy).
    clear - Vr V B K H H0. assert (k = 0 \/ k = 1) as [-> | ->] by lia; lia.
Qed.

(** ** The curves *)
Add Field KFJ1 : Kp1.
Add Field KFJ2 : Kp2.
Local Transparent bls_p.
Lemma p_100 : 100 < p. Proof. reflexivity. Qed.
Local Opaque bls_p.
Lemma small_ne n : 0 < n < 100 -> fp_of p n <> fp_of p 0.
Proof.
  intros B E. apply (f_equal fval) in E. rewrite !fval_of, Z.mod_0_l in E by (pose proof p_gt0; lia).
  pose proof p_100 as S. rewrite Z.mod_small in E; lia.
Qed.
Lemma add_of a b : fp_add (fp_of p a) (fp_of p b) = fp_of p (a + b).
Proof. symmetry. apply fp_of_add. Qed.
Lemma char2_1 : fp_add (fp_of p 1) (fp_of p 1) <> fp_of p 0.
Proof. rewrite add_of. apply small_ne. lia. Qed.
Lemma char3_1 : fp_add (fp_add (fp_of p 1) (fp_of p 1)) (fp_of p 1) <> fp_of p 0.
Proof. rewrite !add_of. apply small_ne. lia. Qed.
Lemma nonsing_1 : forall x y : fp p, fp_mul y y = fp_add (fp_add (fp_mul (fp_mul x x) x) (fp_mul (fp_of p 0) x)) (fp_of p 4) ->
  fp_mul (fp_add (fp_of p 1) (fp_of p 1)) y = fp_of p 0 ->
  fp_add (fp_mul (fp_add (fp_add (fp_of p 1) (fp_of p 1)) (fp_of p 1)) (fp_mul x x)) (fp_of p 0) = fp_of p 0 -> False.
Proof.
  intros x y E Y X. pose proof (k_integral _ _ _ _ _ _ _ _ _ Kp1 fp_dec) as KI.
  apply KI in Y. destruct Y as [Y| ->]; [exact (char2_1 Y)|].
  assert (X' : fp_mul (fp_add (fp_add (fp_of p 1) (fp_of p 1)) (fp_of p 1)) (fp_mul x x) = fp_of p 0) by (etransitivity; [|exact X]; ring).
  apply KI in X'. destruct X' as [X'|X']; [exact (char3_1 X')|]. apply KI in X'.
  assert (x = fp_of p 0) as -> by (destruct X'; assumption). apply (small_ne 4); [lia|].
  transitivity (fp_add (fp_add (fp_mul (fp_mul (fp_of p 0) (fp_of p 0)) (fp_of p 0)) (fp_mul (fp_of p 0) (fp_of p 0))) (fp_of p 4)); [ring|].
  rewrite <- E. ring.
Qed.
Lemma char2_2 : q2_add (q2 p 1 0) (q2 p 1 0) <> q2 p 0 0.
Proof. intros E. apply (f_equal fst) in E. exact (char2_1 E). Qed.
Lemma char3_2 : q2_add (q2_add (q2 p 1 0) (q2 p 1 0)) (q2 p 1 0) <> q2 p 0 0.
Proof. intros E. apply (f_equal fst) in E. exact (char3_1 E). Qed.
Lemma nonsing_2 : forall x y : fp2 p, q2_mul y y = q2_add (q2_add (q2_mul (q2_mul x x) x) (q2_mul (q2 p 0 0) x)) (q2 p 4 4) ->
  q2_mul (q2_add (q2 p 1 0) (q2 p 1 0)) y = q2 p 0 0 ->
  q2_add (q2_mul (q2_add (q2_add (q2 p 1 0) (q2 p 1 0)) (q2 p 1 0)) (q2_mul x x)) (q2 p 0 0) = q2 p 0 0 -> False.
Proof.
  intros x y E Y X. pose proof (k_integral _ _ _ _ _ _ _ _ _ Kp2 q2_dec) as KI.
  apply KI in Y. destruct Y as [Y| ->]; [exact (char2_2 Y)|].
  assert (X' : q2_mul (q2_add (q2_add (q2 p 1 0) (q2 p 1 0)) (q2 p 1 0)) (q2_mul x x) = q2 p 0 0) by (etransitivity; [|exact X]; ring).
  apply KI in X'. destruct X' as [X'|X']; [exact (char3_2 X')|]. apply KI in X'.
  assert (x = q2 p 0 0) as -> by (destruct X'; assumption).
  assert (E' : q2 p 4 4 = q2 p 0 0).
  { transitivity (q2_add (q2_add (q2_mul (q2_mul (q2 p 0 0) (q2 p 0 0)) (q2 p 0 0)) (q2_mul (q2 p 0 0) (q2 p 0 0))) (q2 p 4 4)); [ring|].
    rewrite <- E. ring. }
  apply (f_equal fst) in E'. apply (small_ne 4); [lia|exact E'].
Qed.

(** ** The codes compute in the fields *)
Section Inst.
Variable F : fbuild.
Hypothesis HF : exact_but_square F.
Definition inv2 (x : fe2) : Prop := sq_ok F (fst x) /\ sq_ok F (snd x).
Lemma C2_rep : crep (fp2 p) (q2 p 0 0) (q2 p 1 0) q2_add q2_mul q2_sub q2_opp q2_div q2_dec (q2 p 4 4) (C2 F) rep2 inv2.
Proof using HF.
  constructor; cbn [C2 c_zero c_one c_b c_add c_sub c_mul c_double c_neg c_square c_inverse c_equal c_isZero].
  - exact rep2_fun.
  - exact rep2_inj.
  - exact zero2_rep.
  - exact one2_rep.
  - exact b2_rep.
  - exact (add2_rep F HF).
  - exact (sub2_rep F HF).
  - exact (mul2_rep F HF).
  - exact (double2_rep F HF).
  - exact (neg2_rep F HF).
  - exact (square2_rep F HF).
  - intros x a [S0 S1]. exact (inverse2_rep F HF x a S0 S1).
  - exact equal2_rep.
  - exact iszero2_rep.
Qed.
Lemma enc1_ok a : bytes_ok (enc1 a). Proof using. apply z2be_ok. Qed.
Lemma enc1_inj a b : enc1 a = enc1 b -> a = b.
Proof using. intros E. apply (f_equal be2z) in E. rewrite !enc1_val in E. apply fp_eq. exact E. Qed.
Lemma hd_bound b : bytes_ok b -> 32 * 256 ^ Z.of_nat (length b - 1) > be2z b -> b <> [] -> 0 <= nth 0 b 0 < 32.
Proof using.
  intros O B N. destruct b as [|h r]; [congruence|]. cbn [nth]. cbn [length Nat.sub] in B. rewrite Nat.sub_0_r in B.
  inversion O as [|? ? Oh Or]; subst. unfold byte_ok in Oh. split; [lia|].
  pose proof (be2z_bound r Or) as Br. change (h :: r) with ([h] ++ r) in B. rewrite be2z_app in B.
  assert (E : be2z [h] = h) by (cbn; lia). rewrite E in B.
  assert (0 < 256 ^ Z.of_nat (length r)) by (apply Z.pow_pos_nonneg; lia). nia.
Qed.
Lemma enc1_top a : 0 <= nth 0 (enc1 a) 0 < 32.
Proof using.
  apply hd_bound; [apply enc1_ok| |intros E; apply (f_equal (@length Z)) in E; rewrite enc1_len in E; discriminate].
  rewrite enc1_val, enc1_len. change (48 - 1)%nat with 47%nat. pose proof (fv_bound a). pose proof p_256. lia.
Qed.
Lemma C2_codec : ccodec (fp2 p) (q2 p 0 0) q2_mul q2_opp (C2 F) rep2 enc2 small2.
Proof using HF.
  constructor; cbn [C2 c_len c_toBytes c_fromBytes c_sqrt c_signBE].
  - intros a. unfold enc2. split; [apply bytes_ok_app; apply enc1_ok|]. rewrite app_length, !enc1_len. reflexivity.
  - lia.
  - intros a. unfold enc2. rewrite app_nth1 by (rewrite enc1_len; lia). apply enc1_top.
  - intros a b E. unfold enc2 in E.
    pose proof (f_equal (firstn 48) E) as E1. pose proof (f_equal (skipn 48) E) as E2.
    rewrite !firstn_app, !enc1_len, !Nat.sub_diag, !firstn_O, !app_nil_r, !firstn_all2 in E1 by (rewrite enc1_len; lia).
    rewrite !skipn_app, !enc1_len, !Nat.sub_diag, !skipn_O, !skipn_all2 in E2 by (rewrite enc1_len; lia).
    destruct a, b. cbn [fst snd app] in *. f_equal; apply enc1_inj; assumption.
  - exact (toBytes2_rep F HF).
  - exact (fromBytes2_rep F HF).
  - exact (sqrt2_rep F HF).
  - exact (signBE2_rep F HF).
  - exact small2_neg.
Qed.

(** G1 squares with the routine [square] *)
Section One.
Hypothesis HS : forall x, sq_ok F x.
Lemma square_rep x a : rep1 x a -> rep1 (f_square F x) (fp_mul a a).
Proof using HS. intros A. unfold rep1, fp_mul. rewrite fval_of. exact (HS x _ A). Qed.
Lemma C1_rep : crep (fp p) (fp_of p 0) (fp_of p 1) fp_add fp_mul fp_sub fp_opp fp_div fp_dec (fp_of p 4) (C1 F) rep1 (fun _ => True).
Proof using HF HS.
  constructor; cbn [C1 c_zero c_one c_b c_add c_sub c_mul c_double c_neg c_square c_inverse c_equal c_isZero].
  - exact rep1_fun.
  - exact rep1_inj.
  - exact zero_rep.
  - exact r1_rep.
  - exact b1_rep.
  - exact (add_rep F HF).
  - exact (sub_rep F HF).
  - exact (mul_rep F HF).
  - exact (double_rep F HF).
  - exact (neg_rep F HF).
  - exact square_rep.
  - intros x a _. exact (inverse_rep F HF x a).
  - exact equal_rep.
  - exact iszero_rep.
Qed.
Local Transparent bls_p.
Lemma exp14_z : pPlus1Over4 = (p + 1) / 4. Proof using. reflexivity. Qed.
Local Opaque bls_p.
Lemma fexp_14 x : fexp F x pPlus1Over4 = exp_pos F x (Z.to_pos pPlus1Over4). Proof using. reflexivity. Qed.
Lemma exp14 : (Pos.to_nat (Z.to_pos pPlus1Over4) * 4 = Z.to_nat p + 1)%nat.
Proof using.
  rewrite to_pos_nat by reflexivity. rewrite exp14_z. pose proof p34 as M. pose proof p_gt0 as P0.
  pose proof (Z.div_mod p 4 ltac:(lia)) as D. rewrite M in D.
  assert (E : (p + 1) / 4 = p / 4 + 1) by (symmetry; apply (Z.div_unique _ _ _ 0); lia).
  rewrite E. assert (0 <= p / 4) by (apply Z.div_pos; lia). apply Nat2Z.inj.
  rewrite Nat2Z.inj_mul, Nat2Z.inj_add, !Z2Nat.id by lia. lia.
Qed.
Notation pw1 := (pw (fp p) (fp_of p 1) fp_mul).
Lemma sqrt_rep x a : rep1 x a ->
  (forall y, fsqrt F x = (y, true) -> exists b, rep1 y b /\ fp_mul b b = a) /\
  ((exists b, fp_mul b b = a) -> snd (fsqrt F x) = true).
Proof using HF HS.
  intros A. unfold fsqrt. rewrite fexp_14. cbv zeta. pose proof (exp_rep F HF x a A (Z.to_pos pPlus1Over4)) as E.
  rewrite (equal_rep _ _ _ _ A (square_rep _ _ E)). cbn [snd]. split.
  - intros y H. destruct (fp_dec a _) as [Ea|]; [|discriminate]. apply pair_equal_spec in H. destruct H as [<- _]. eexists. split; [exact E|]. symmetry. exact Ea.
  - intros [b Eb]. destruct (fp_dec a _) as [|N]; [reflexivity|]. exfalso. apply N. clear N.
    rewrite <- Eb. rewrite (pw_base _ _ _ _ _ _ _ _ _ Kp1), <- !(pw_add _ _ _ _ _ _ _ _ _ Kp1).
    pose proof exp14 as X. set (e := Pos.to_nat _) in *. clearbody e. replace (e + e + (e + e))%nat with (Z.to_nat p + 1)%nat by lia.
    rewrite (pw_add _ _ _ _ _ _ _ _ _ Kp1), (fermat1 p bls_p_prime p34). cbn [pw]. ring.
Qed.
Lemma C1_codec : ccodec (fp p) (fp_of p 0) fp_mul fp_opp (C1 F) rep1 enc1 small1.
Proof using HF HS.
  constructor; cbn [C1 c_len c_toBytes c_fromBytes c_sqrt c_signBE].
  - intros a. split; [apply enc1_ok|apply enc1_len].
  - lia.
  - exact enc1_top.
  - exact enc1_inj.
  - exact (toBytes_rep F HF).
  - exact (fromBytes_rep F HF).
  - exact sqrt_rep.
  - exact (signBE_rep F HF).
  - exact small1_neg.
Qed.
End One.
End Inst.

(** ** In the words of the specification *)
Definition rep_g2 : ModelBls.point fe2 -> g2pt -> Prop := jrep (fp2 p) (q2 p 0 0) q2_mul q2_div q2_dec rep2.
Definition rep_g1 : ModelBls.point fe -> g1pt -> Prop := jrep (fp p) (fp_of p 0) fp_mul fp_div fp_dec rep1.
Lemma G2 : is_group g2pt g2_inf g2_add g2_neg g2_on.
Proof. exact (grp _ _ _ _ _ _ _ _ _ Kp2 q2_dec (q2 p 4 4) char2_2 nonsing_2). Qed.
Lemma G1 : is_group g1pt g1_inf g1_add g1_neg g1_on.
Proof. exact (grp _ _ _ _ _ _ _ _ _ Kp1 fp_dec (fp_of p 4) char2_1 nonsing_1). Qed.
Lemma flag_be b f : bytes_ok b -> (0 < length b)%nat -> 0 <= nth 0 b 0 < 32 -> 0 <= f <= 160 ->
  flag_first f b = z2be (length b) (f * 256 ^ Z.of_nat (length b - 1) + be2z b).
Proof.
  intros O L B Hf. destruct b as [|h r]; [cbn in L; lia|]. cbn [nth] in B. cbn [flag_first].
  assert (O' : bytes_ok (h + f :: r)) by (inversion_clear O; constructor; [unfold byte_ok; lia|assumption]).
  rewrite <- (z2be_be2z _ O'). f_equal. cbn [length Nat.sub]. rewrite Nat.sub_0_r.
  change (h + f :: r) with ([h + f] ++ r). change (h :: r) with ([h] ++ r). rewrite !be2z_app. cbn. lia.
Qed.
Lemma top_eq low : top_bits low = (if low then 128 else 160) * 256 ^ Z.of_nat 47.
Proof. destruct low; reflexivity. Qed.
Lemma enc_top (a : fp p) low : flag_first (if low : bool then 128 else 160) (enc1 a) = z2be 48 (top_bits low + fval a).
Proof.
  rewrite flag_be; [|apply enc1_ok|rewrite enc1_len; lia|apply enc1_top|destruct low; lia].
  rewrite enc1_len, enc1_val, top_eq. reflexivity.
Qed.
Lemma sig_encp F Q : encp (fp2 p) (C2 F) enc2 small2 Q = sig_bytes Q.
Proof.
  destruct Q as [|x y]; [reflexivity|]. cbn [encp sig_bytes]. change (low2 y) with (small2 y). unfold enc2.
  assert (E : forall f w, flag_first f (enc1 (snd x) ++ w) = flag_first f (enc1 (snd x)) ++ w).
  { intros f w. pose proof (enc1_len (snd x)) as L. destruct (enc1 (snd x)); [discriminate|reflexivity]. }
  rewrite E, enc_top. reflexivity.
Qed.
Lemma key_encp F Q : encp (fp p) (C1 F) enc1 small1 Q = key_bytes Q.
Proof. destruct Q as [|x y]; [reflexivity|]. cbn [encp key_bytes]. change (low1 y) with (small1 y). apply enc_top. Qed.
Lemma r_eq : bls_r = bls_order. Proof. reflexivity. Qed.
Lemma in_wcond2 Q : in_G2 Q <-> wcond (fp2 p) (q2 p 0 0) (q2 p 1 0) q2_add q2_mul q2_sub q2_opp q2_div q2_dec (q2 p 4 4) Q.
Proof. unfold in_G2, wcond, g2_mul. rewrite r_eq. generalize bls_order. intros n. reflexivity. Qed.
Lemma in_wcond1 Q : in_G1 Q <-> wcond (fp p) (fp_of p 0) (fp_of p 1) fp_add fp_mul fp_sub fp_opp fp_div fp_dec (fp_of p 4) Q.
Proof. unfold in_G1, wcond, g1_mul. rewrite r_eq. generalize bls_order. intros n. reflexivity. Qed.
Section G2s.
Variable F : fbuild.
Hypothesis HF : exact_but_square F.
Lemma sig_dec_sound b P : bytes_ok b -> length b = 96%nat -> g_FromCompressed (C2 F) b = Some P ->
  exists Q, rep_g2 P Q /\ in_G2 Q /\ sig_bytes Q = b /\ (pz P = fp2_one \/ P = g_Zero (C2 F)).
Proof using HF.
  intros O L D. destruct (dec_sound _ _ _ _ _ _ _ _ _ Kp2 q2_dec _ (C2 F) rep2 _ (C2_rep F HF) char2_2 nonsing_2 _ _ (C2_codec F HF) b P O L D) as (Q & J & W & E & Z).
  exists Q. split; [exact J|]. split; [exact (proj2 (in_wcond2 Q) W)|]. split; [rewrite <- E; symmetry; apply sig_encp|exact Z].
Qed.
Lemma sig_dec_complete Q : in_G2 Q -> exists P, g_FromCompressed (C2 F) (sig_bytes Q) = Some P /\ rep_g2 P Q /\ (pz P = fp2_one \/ P = g_Zero (C2 F)).
Proof using HF.
  intros W. pose proof (proj1 (in_wcond2 Q) W) as W'. destruct (dec_complete _ _ _ _ _ _ _ _ _ Kp2 q2_dec _ (C2 F) rep2 _ (C2_rep F HF) char2_2 nonsing_2 _ _ (C2_codec F HF) Q W') as (P & D & J & Z).
  exists P. rewrite <- (sig_encp F). split; [exact D|]. split; [exact J|exact Z].
Qed.
Lemma sig_enc P Q : rep_g2 P Q -> pz P = fp2_one \/ inv2 F (pz P) \/ Q = g2_inf -> g_ToCompressed (C2 F) P = sig_bytes Q.
Proof using HF.
  intros J H. rewrite <- (sig_encp F). apply (enc_spec _ _ _ _ _ _ _ _ _ Kp2 q2_dec _ (C2 F) rep2 _ (C2_rep F HF) nonsing_2 _ _ (C2_codec F HF) P Q J H).
Qed.
Lemma g2_add_rep P1 P2 Q1 Q2 : rep_g2 P1 Q1 -> rep_g2 P2 Q2 -> g2_on Q1 -> g2_on Q2 -> rep_g2 (g_Add (C2 F) P1 P2) (g2_add Q1 Q2).
Proof using HF. exact (j_add _ _ _ _ _ _ _ _ _ Kp2 q2_dec _ (C2 F) rep2 _ (C2_rep F HF) char2_2 P1 P2 Q1 Q2). Qed.
Lemma g2_mul_rep P Q e : 0 <= e -> rep_g2 P Q -> g2_on Q -> rep_g2 (g_MulScalar (C2 F) P e) (g2_mul e Q).
Proof using HF. exact (j_mul _ _ _ _ _ _ _ _ _ Kp2 q2_dec _ (C2 F) rep2 _ (C2_rep F HF) char2_2 nonsing_2 P Q e). Qed.
Lemma g2_blank_rep : rep_g2 (g_Blank (C2 F)) g2_inf.
Proof using HF. exact (j_blank _ _ _ _ _ _ _ _ q2_dec _ (C2 F) rep2 _ (C2_rep F HF)). Qed.
Lemma g2_iszero_rep P Q : rep_g2 P Q -> g_IsZero (C2 F) P = match Q with Weier.Inf _ => true | _ => false end.
Proof using HF. exact (j_iszero _ _ _ _ _ _ _ _ q2_dec _ (C2 F) rep2 _ (C2_rep F HF) P Q). Qed.
End G2s.
Lemma sig_inj Q1 Q2 : in_G2 Q1 -> in_G2 Q2 -> sig_bytes Q1 = sig_bytes Q2 -> Q1 = Q2.
Proof.
  intros W1 W2 E. pose proof (proj1 (in_wcond2 Q1) W1) as W1'. pose proof (proj1 (in_wcond2 Q2) W2) as W2'. rewrite <- !(sig_encp portable) in E.
  exact (encp_inj _ _ _ _ _ _ _ _ _ Kp2 q2_dec _ (C2 portable) rep2 _ (C2_rep portable portable_exact) char2_2 nonsing_2 _ _ (C2_codec portable portable_exact) Q1 Q2 W1' W2' E).
Qed.
Lemma sig_bytes_ok Q : bytes_ok (sig_bytes Q) /\ length (sig_bytes Q) = 96%nat.
Proof.
  rewrite <- (sig_encp portable).
  exact (encp_ok _ _ _ _ _ _ _ (C2 portable) rep2 nonsing_2 _ _ (C2_codec portable portable_exact) Q).
Qed.
