(** Concrete runs of the SM2 code: witnesses for hypotheses, and the
    counterexamples behind the refuted properties. *)
From Coq Require Import ZArith List Lia Znumtheory Bool Ring Field.
From Verif Require Import Base Words Fp Weier EC Curves Group Primes ModelECDSA SpecECDSA ProofECDSA ProofECDSA2 ProofECDSA3 ProofK1Wit ProofR1Wit
  SpecSM3 ModelSM3 ProofSM3 SpecSM2 ModelSM2F ModelSM2P ProofSM2P ProofSM2L ModelSM2S ProofSM2S ProofSM2E ModelApi ProofSM2A PropsK1.
Import ListNotations.
Open Scope Z_scope.

(** Doubling with a given slope. *)
Section DoubleCert.
Variable c : wcurve.
Hypothesis Hf : w_field_ok c.
Let p := w_p c.
Lemma Kf11 : field_theory (fp_of p 0) (fp_of p 1) fp_add fp_mul fp_sub fp_opp fp_div fp_inv eq.
Proof. exact (fp_field _ (wv_prime c Hf)). Qed.
Add Field KF11 : Kf11.
Lemma w_double_cert x1 y1 l x3 y3 :
  (2 * y1) mod p <> 0 -> (l * (2 * y1)) mod p = (3 * (x1 * x1) + w_a c) mod p ->
  x3 mod p = (l * l - x1 - x1) mod p -> y3 mod p = (l * (x1 - x3) - y1) mod p ->
  w_add c (paff c x1 y1) (paff c x1 y1) = paff c x3 y3.
Proof.
  intros Hy Hl E3 F3.
  assert (EQ : forall a b, a mod p = b mod p -> fp_of p a = fp_of p b)
    by (intros a b H; rewrite <- (fp_of_mod p a), H, fp_of_mod; reflexivity).
  apply EQ in Hl, E3, F3.
  repeat (rewrite ?fp_of_add, ?fp_of_mul in Hl). repeat (rewrite ?fp_of_sub, ?fp_of_mul in E3).
  repeat (rewrite ?fp_of_sub, ?fp_of_mul in F3).
  assert (T2 : fp_of p 2 = fp_add (fp_of p 1) (fp_of p 1)) by (rewrite <- fp_of_add; reflexivity).
  assert (T3 : fp_of p 3 = fp_add (fp_of p 1) (fp_add (fp_of p 1) (fp_of p 1))) by (rewrite <- !fp_of_add; reflexivity).
  rewrite T2, T3 in Hl.
  assert (N : fp_add (fp_of p y1) (fp_of p y1) <> fp_of p 0).
  { rewrite <- fp_of_add. intros E. apply Hy. apply (f_equal fval) in E. rewrite !fval_of in E.
    replace (2 * y1) with (y1 + y1) by ring. rewrite E. reflexivity. }
  assert (N2 : fp_mul (fp_add (fp_of p 1) (fp_of p 1)) (fp_of p y1) <> fp_of p 0).
  { intros E. apply N. rewrite <- E. ring. }
  unfold w_add, paff. cbn [padd].
  destruct (fp_dec (fp_of (w_p c) x1) (fp_of (w_p c) x1)) as [_|X]; [|contradiction].
  match goal with |- context [if ?t then _ else _] => destruct t as [E|_] end.
  { exfalso. apply N. fold p in E. rewrite E at 1. ring. }
  fold p.
  match goal with |- context [fp_div ?a ?b] => assert (El : fp_div a b = fp_of p l) end.
  { transitivity (fp_div (fp_mul (fp_of p l) (fp_mul (fp_add (fp_of p 1) (fp_of p 1)) (fp_of p y1)))
                    (fp_mul (fp_add (fp_of p 1) (fp_of p 1)) (fp_of p y1))).
    - rewrite Hl. f_equal; ring.
    - clear - Hf N2. generalize dependent (fp_mul (fp_add (fp_of p 1) (fp_of p 1)) (fp_of p y1)). intros u Nu. generalize (fp_of p l). intros a. field. exact Nu. }
  rewrite El, F3, E3. f_equal; ring.
Qed.
End DoubleCert.

Definition key2 : bytes := repeat 0 31 ++ [2].
Definition sm2_2Gx := 39264624226210491828350299246801547995169179683885222662092227069188840275282.
Definition sm2_2Gy := 22488263119165336147085100012701851696717994160539376183636150600277949031363.
Definition sm2_3Gx := 76666122538788394077905246095942965985004002500161410043389410540587813215935.
Definition sm2_3Gy := 37562049450669137769783327741706840446663212216998583071314754578128328783590.

Lemma same_scalar a b : sm2_get_scalar a = sm2_get_scalar b ->
  sm2_ScalarBaseMult a = sm2_ScalarBaseMult b /\ (forall x y, sm2_ScalarMult x y a = sm2_ScalarMult x y b).
Proof. unfold sm2_ScalarBaseMult, sm2_ScalarMult. intros ->. split; reflexivity. Qed.
Lemma base_1 : sm2_ScalarBaseMult [1] = ((sm2_Gx, sm2_Gy), true).
Proof. vm_cast_no_check (@eq_refl (watched (Z * Z)) ((sm2_Gx, sm2_Gy), true)). Qed.
Lemma base_2 : sm2_ScalarBaseMult [2] = ((sm2_2Gx, sm2_2Gy), true).
Proof. vm_cast_no_check (@eq_refl (watched (Z * Z)) ((sm2_2Gx, sm2_2Gy), true)). Qed.
Lemma base_3 : sm2_ScalarBaseMult [3] = ((sm2_3Gx, sm2_3Gy), true).
Proof. vm_cast_no_check (@eq_refl (watched (Z * Z)) ((sm2_3Gx, sm2_3Gy), true)). Qed.
Lemma mult_1 : sm2_ScalarMult sm2_Gx sm2_Gy [1] = ((sm2_Gx, sm2_Gy), true).
Proof. vm_cast_no_check (@eq_refl (watched (Z * Z)) ((sm2_Gx, sm2_Gy), true)). Qed.
Lemma scalar_key1 : sm2_get_scalar key1 = sm2_get_scalar [1]. Proof. vm_compute. reflexivity. Qed.
Lemma scalar_key2 : sm2_get_scalar key2 = sm2_get_scalar [2]. Proof. vm_compute. reflexivity. Qed.
Lemma base_key1 : sm2_ScalarBaseMult key1 = ((sm2_Gx, sm2_Gy), true).
Proof. rewrite (proj1 (same_scalar _ _ scalar_key1)). exact base_1. Qed.
Lemma base_key2 : sm2_ScalarBaseMult key2 = ((sm2_2Gx, sm2_2Gy), true).
Proof. rewrite (proj1 (same_scalar _ _ scalar_key2)). exact base_2. Qed.
Lemma mult_key1 : sm2_ScalarMult sm2_Gx sm2_Gy key1 = ((sm2_Gx, sm2_Gy), true).
Proof. rewrite (proj2 (same_scalar _ _ scalar_key1)). exact mult_1. Qed.
Lemma add_2_1 : sm2_Add sm2_2Gx sm2_2Gy sm2_Gx sm2_Gy = ((sm2_3Gx, sm2_3Gy), true).
Proof. vm_compute. reflexivity. Qed.
Lemma add_1_1 : sm2_Add sm2_Gx sm2_Gy sm2_Gx sm2_Gy = ((0, 0), true).
Proof. vm_compute. reflexivity. Qed.
Lemma on_G : sm2_IsOnCurve sm2_Gx sm2_Gy = (true, true).
Proof. vm_compute. reflexivity. Qed.


(** A point whose double, and two points whose sum, go through the underflow. *)
Definition dw_x := 0xfcf771deeb0021b7298d30b607502d0c98086c894049b1ea2269a3e756a2e911.
Definition dw_y := 0xe4c2988ff6a05a5e95e21b0cae5a333e4d3f507fa807b0174342fa8b21f2c8fb.
Definition dw_2x := 79090829588831099030508399509944675193402360011076787566283589025960374813769.
Definition dw_2y := 81832913118368271916297399086097022876263304765786778936453741984603925027961.
Definition dw_l := 40866300462776333420386031728362537205671106653597670121938130957331077359807.
Definition dw_cx := 19085019673257661208484400464121818384921783320271591248664140262139536438790.
Definition dw_cy := 29237342816244178273268112120869685451732666496986049645359868626783180557397.
Lemma dw_on : w_on sm2p256 (paff sm2p256 dw_x dw_y).
Proof. apply paff_on_iff. vm_compute. reflexivity. Qed.
Lemma dw_double : w_add sm2p256 (paff sm2p256 dw_x dw_y) (paff sm2p256 dw_x dw_y) = paff sm2p256 dw_2x dw_2y.
Proof.
  apply (w_double_cert sm2p256 (wv_field _ sm2p256_valid) _ _ dw_l); vm_compute; try reflexivity. discriminate.
Qed.
Lemma dw_code : fst (sm2_ScalarMult dw_x dw_y [2]) = (dw_cx, dw_cy).
Proof. vm_cast_no_check (@eq_refl (Z * Z) (dw_cx, dw_cy)). Qed.
Lemma dw_code_key2 : fst (sm2_ScalarMult dw_x dw_y key2) = (dw_cx, dw_cy).
Proof. rewrite (proj2 (same_scalar _ _ scalar_key2)). exact dw_code. Qed.

Definition aw_x := 0x521fce69779de228b767131b567b253d98038a73035d5b825ce6f8af176efb74.
Definition aw_y := 0x6589972a91b65a67b38eb6342848f31a9e3316d85a7db5d179732299ae5cea1.
Definition aw_l := 65460359139667147887059726711957164078316098548272301133568135692319285967836.
Definition aw_sx := 80950022162081405113568338505582548653852975452911335960657841437442430791747.
Definition aw_sy := 5216686354134736403170142646723210475752252745494668274039383865254524124213.
Definition aw_cx := 2457955719666864065102509546639366375508648210462587735977784210004041121472.
Definition aw_cy := 76699043072149992490037923252935022254701247946235345529488969628378961508610.
Lemma aw_on : w_on sm2p256 (paff sm2p256 aw_x aw_y).
Proof. apply paff_on_iff. vm_compute. reflexivity. Qed.
Lemma aw_sum : w_add sm2p256 (paff sm2p256 aw_x aw_y) (w_G sm2p256) = paff sm2p256 aw_sx aw_sy.
Proof.
  apply (w_add_cert sm2p256 (wv_field _ sm2p256_valid) _ _ _ _ aw_l); vm_compute; try reflexivity. discriminate.
Qed.
Lemma aw_code : fst (sm2_Add aw_x aw_y sm2_Gx sm2_Gy) = (aw_cx, aw_cy).
Proof. vm_compute. reflexivity. Qed.
Lemma sm2_2G : w_mul sm2p256 2 (w_G sm2p256) = paff sm2p256 sm2_2Gx sm2_2Gy.
Proof.
  change (w_mul sm2p256 2 (w_G sm2p256)) with (w_add sm2p256 (w_G sm2p256) (w_G sm2p256)).
  apply (w_double_cert sm2p256 (wv_field _ sm2p256_valid) _ _ 97089084182832288391840691297101644113875969642515613231745221902176049284016);
    vm_compute; try reflexivity. discriminate.
Qed.
