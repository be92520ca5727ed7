(** Point_mulBaseG_add and Point_add on edwards25519. *)
Require Import ZArith List Lia Bool Znumtheory Field.
Require Import Verif.Base Verif.Words Verif.Fp Verif.Group Verif.Edw Verif.SpecEd Verif.EdCurve Verif.ModelECDSA Verif.ModelSlp Verif.ModelEdCode Verif.ModelEd Verif.ModelEdDSA.
Require Import Verif.ProofSlp Verif.ProofEdF Verif.ProofEdG Verif.ProofEdC Verif.ProofEdN Verif.ProofEdT Verif.ProofEdM Verif.ProofEdR Verif.ProofEdS Verif.ProofEdX.
Import ListNotations.
Open Scope Z_scope.
Lemma Kf25a : field_theory (fz 0) (fz 1) fp_add fp_mul fp_sub fp_opp fp_div fp_inv (@eq F25).
Proof. exact Kf25. Qed.
Add Field KF25a : Kf25a.

Lemma enc_inj x y : f25_enc x = f25_enc y -> x = y.
Proof. intros E. rewrite <- (f25_enc_dec x), E. apply f25_enc_dec. Qed.
Lemma enc_0 : f25_enc (fz 0) = repeat 0 32. Proof. reflexivity. Qed.
Lemma enc_1 : f25_enc (fz 1) = 1 :: repeat 0 31. Proof. reflexivity. Qed.
Lemma feIsZero_ok c f x : rep c f x -> c <= 3 -> (feIsZero f = true <-> x = fz 0).
Proof.
  intros H Hc. unfold feIsZero. rewrite (rep_enc c f x H Hc), <- enc_0, Z.eqb_eq.
  rewrite cv32_zero by (try apply f25_enc_ok; now rewrite !f25_enc_length). split; [apply enc_inj|now intros ->].
Qed.
Lemma feIsOne_ok c f x : rep c f x -> c <= 3 -> (feIsOne f = true <-> x = fz 1).
Proof.
  intros H Hc. unfold feIsOne. rewrite (rep_enc c f x H Hc), <- enc_1, Z.eqb_eq.
  rewrite cv32_zero by (try apply f25_enc_ok; now rewrite !f25_enc_length). split; [apply enc_inj|now intros ->].
Qed.
Definition pt_out (P : ed_pt) : bytes * bool :=
  if fp_dec (fst P) (fz 0) then if fp_dec (snd P) (fz 1) then (repeat 0 32, true) else (ed_enc P, false) else (ed_enc P, false).
Lemma affine_out_ok q P : proj_rep 1 q P -> affine_out q = pt_out P.
Proof.
  intros (z & N & A & B & C). unfold affine_out, pt_out. cbv zeta.
  pose proof (FeInvert_ok _ z (rep_weaken 1 3 _ _ ltac:(lia) C) N) as HI.
  pose proof (rep_mul _ _ _ _ _ _ A HI ltac:(lia) ltac:(lia)) as Hx. pose proof (rep_mul _ _ _ _ _ _ B HI ltac:(lia) ltac:(lia)) as Hy.
  replace (fp_mul (fp_mul (fst P) z) (fp_inv z)) with (fst P) in Hx by (field; exact N).
  replace (fp_mul (fp_mul (snd P) z) (fp_inv z)) with (snd P) in Hy by (field; exact N).
  pose proof (feIsZero_ok _ _ _ Hx ltac:(lia)) as Z1. pose proof (feIsOne_ok _ _ _ Hy ltac:(lia)) as O1.
  rewrite (proj1 (rep_tobytes _ _ _ Hy ltac:(lia))). rewrite (proj1 (rep_neg_bit _ _ _ Hx ltac:(lia))).
  pose proof (fval255 (snd P)) as B1. pose proof (Z.mod_pos_bound (fval (fst P)) 2 ltac:(lia)) as B2.
  rewrite set_sign_ok by (assumption || lia). fold (ed_enc P).
  destruct (fp_dec (fst P) (fz 0)) as [Hx0|Hx0]; [rewrite (proj2 Z1 Hx0)|destruct (feIsZero _) eqn:E; [exfalso; apply Hx0, Z1; first [exact E|reflexivity]|reflexivity]].
  cbn [andb]. destruct (fp_dec (snd P) (fz 1)) as [Hy1|Hy1]; [now rewrite (proj2 O1 Hy1)|].
  destruct (feIsOne _) eqn:E; [exfalso; apply Hy1, O1; first [exact E|reflexivity]|reflexivity].
Qed.
Lemma pt_out_zero : pt_out ed_zero = (repeat 0 32, true).
Proof. unfold pt_out, ed_zero, e_zero. cbn [fst snd]. destruct (fp_dec (fz 0) (fz 0)); [|congruence]. destruct (fp_dec (fz 1) (fz 1)); congruence. Qed.
Lemma pt_out_ne P : P <> ed_zero -> pt_out P = (ed_enc P, false).
Proof.
  intros N. unfold pt_out. destruct P as [x y]. cbn [fst snd]. destruct (fp_dec x (fz 0)) as [->|]; [|reflexivity].
  destruct (fp_dec y (fz 1)) as [->|]; [|reflexivity]. now destruct N.
Qed.
Lemma one32_ok : bytes_ok one32 /\ length one32 = 32%nat /\ le2z one32 = 1.
Proof. split; [|split; reflexivity]. unfold one32. constructor; [unfold byte_ok; lia|]. apply Forall_forall. intros x H. apply repeat_spec in H. subst. unfold byte_ok. lia. Qed.

Lemma frombytes_of_dec s A : length s = 32%nat -> bytes_ok s -> ed_dec s A -> ext_rep 2 (snd (ext_frombytes s)) A.
Proof.
  intros HL HB D. destruct (ext_frombytes_dec s HL HB) as [(A' & E & D' & R)|[E F]]; [|exfalso; exact (F A D)].
  now rewrite (ed_dec_unique _ _ _ D D').
Qed.
Theorem ScalarMultBaseAdd_ok point scalar A : length point = 32%nat -> bytes_ok point -> ed_dec point A ->
  length scalar = 32%nat -> bytes_ok scalar -> le2z scalar < 2 ^ 255 ->
  ScalarMultBaseAdd point scalar = pt_out (ed_add A (ed_mul (le2z scalar) ed_B)).
Proof.
  intros LP HP D LS HS LT. unfold ScalarMultBaseAdd. cbv zeta. apply affine_out_ok. destruct one32_ok as (O1 & O2 & O3).
  pose proof (GeDoubleScalarMultVartime_ok 2 one32 _ A scalar ltac:(lia) (proj1 D) (frombytes_of_dec _ _ LP HP D) O1 O2 ltac:(rewrite O3; reflexivity) HS LS LT) as H.
  rewrite O3, (ed_mul_1 A (proj1 D)) in H. exact H.
Qed.
Theorem ed_Point_add_ok p1 p2 A1 A2 : length p1 = 32%nat -> bytes_ok p1 -> ed_dec p1 A1 ->
  length p2 = 32%nat -> bytes_ok p2 -> ed_dec p2 A2 -> ed_Point_add p1 p2 = pt_out (ed_add A1 A2).
Proof.
  intros L1 B1 D1 L2 B2 D2. unfold ed_Point_add. cbv zeta. apply affine_out_ok. destruct one32_ok as (O1 & O2 & O3).
  pose proof (GePointAddVarTime_ok 2 one32 _ A1 one32 _ A2 ltac:(lia) (proj1 D1) (frombytes_of_dec _ _ L1 B1 D1) (proj1 D2) (frombytes_of_dec _ _ L2 B2 D2)
    O1 O2 ltac:(rewrite O3; reflexivity) O1 O2 ltac:(rewrite O3; reflexivity)) as H.
  rewrite O3, (ed_mul_1 A1 (proj1 D1)), (ed_mul_1 A2 (proj1 D2)) in H. exact H.
Qed.
