(** Encodings of GT, powers, lists of pairs. *)
From Coq Require Import ZArith List Bool Lia Znumtheory Ring Field Permutation.
From Verif Require Import Base ModelBlsF SpecBls ModelBls ProofBlsF ProofBlsE SpecBlsG BlsPrime ProofBlsH Fp BlsFp2 BlsFrob ProofBlsI Weier Group SpecBlsSig SpecBlsPair ProofBlsJ ProofBlsK SpecBlsMap SpecBlsGT BlsTower SpecBlsAte ModelBlsGT ProofBlsU ProofBlsV ProofBlsW ProofBlsX ProofBlsY ProofBlsZ.
From Verif Require Tower Group.
Import ListNotations.
Local Open Scope Z_scope.
Add Field KFB1 : Kp1.
Add Field KFB2 : Kp2.
Add Field KFB12 : K12.
Local Opaque phi zp bls_p bls_r Group.zmul E_final.
Definition enc6 (a : F6) : bytes := enc2 (A2 a) ++ enc2 (A1 a) ++ enc2 (A0 a).
Definition enc12 (a : F12) : bytes := enc6 (B1 a) ++ enc6 (B0 a).
Lemma enc2_len a : length (enc2 a) = 96%nat.
Proof. unfold enc2. rewrite app_length, !enc1_len. reflexivity. Qed.
Lemma enc6_len a : length (enc6 a) = 288%nat.
Proof. unfold enc6. rewrite !app_length, !enc2_len. reflexivity. Qed.
Lemma enc12_len a : length (enc12 a) = 576%nat.
Proof. unfold enc12. rewrite !app_length, !enc6_len. reflexivity. Qed.
Lemma fs {A} n (l l' : list A) : length l = n -> firstn n (l ++ l') = l.
Proof. intros <-. rewrite firstn_app, Nat.sub_diag, firstn_O, app_nil_r. apply firstn_all. Qed.
Lemma ss {A} n (l l' : list A) : length l = n -> skipn n (l ++ l') = l'.
Proof. intros <-. rewrite skipn_app, Nat.sub_diag, skipn_all. reflexivity. Qed.
Lemma sk2 {A} n m (l : list A) : skipn n (skipn m l) = skipn (m + n) l.
Proof. revert l. induction m as [|m IH]; intros l; [reflexivity|]. destruct l; [apply skipn_nil|]. exact (IH l). Qed.
Lemma inj_gen q M n x y : q < 256 ^ Z.of_nat n /\ M -> 0 <= x < q -> 0 <= y < q -> z2be n x = z2be n y -> x = y.
Proof. intros [P _] A B. apply z2be_inj; lia. Qed.
Lemma enc1_inj' (c d : fp bls_p) : enc1 c = enc1 d -> c = d.
Proof. intros X. apply fp_eq. exact (inj_gen _ _ 48 _ _ p_256 (fv_bound c) (fv_bound d) X). Qed.
Lemma enc12_inj a' a : enc12 a' = enc12 a -> a' = a.
Proof.
  unfold enc12, enc6, enc2. intros H.
      assert (A2' : forall {u v u' v' : bytes}, length u = length u' -> u ++ v = u' ++ v' -> u = u' /\ v = v').
      { intros u v u' v' L X. apply (f_equal (firstn (length u))) in X as X1. rewrite (fs _ u v eq_refl) in X1. rewrite L in X1. rewrite (fs _ u' v' eq_refl) in X1.
        split; [exact X1|]. rewrite X1 in X. exact (app_inv_head _ _ _ X). }
      assert (I1 : forall c d, enc1 c = enc1 d -> c = d).
      { exact enc1_inj'. }
      rewrite <- !app_assoc in H.
      repeat match goal with X : enc1 _ ++ _ = enc1 _ ++ _ |- _ => apply A2' in X; [|rewrite !enc1_len; reflexivity]; let Y := fresh "E" in destruct X as [Y X]; apply I1 in Y end.
      apply I1 in H. destruct a' as [[[? ?] [? ?] [? ?]] [[? ?] [? ?] [? ?]]], a as [[[? ?] [? ?] [? ?]] [[? ?] [? ?] [? ?]]]. cbn [Tower.a0 Tower.a1 Tower.a2 Tower.b0 Tower.b1 fst snd] in *. subst. reflexivity. 
Qed.
Lemma zp_padd k c d : unit12 c -> unit12 d -> zp k (Mul12 c d) = Mul12 (zp k c) (zp k d).
Proof. exact (Group.zmul_padd _ _ _ _ _ GM k c d). Qed.
Lemma bo_app a b : bytes_ok a -> bytes_ok b -> bytes_ok (a ++ b).
Proof. intros A B. apply Forall_app. exact (conj A B). Qed.
Lemma enc2_ok a : bytes_ok (enc2 a).
Proof. exact (bo_app _ _ (z2be_ok 48 _) (z2be_ok 48 _)). Qed.
Lemma enc6_ok a : bytes_ok (enc6 a).
Proof. exact (bo_app _ _ (enc2_ok _) (bo_app _ _ (enc2_ok _) (enc2_ok _))). Qed.
Lemma enc12_ok a : bytes_ok (enc12 a).
Proof. exact (bo_app _ _ (enc6_ok _) (enc6_ok _)). Qed.
Section Codec.
Variable F : fbuild.
Hypothesis HF : exact_but_square F.
Lemma toBytes6_rep x a : rep6 x a -> fp6_toBytes F x = enc6 a.
Proof using HF. intros (P & Q & R). unfold fp6_toBytes, enc6. rewrite (toBytes2_rep F HF _ _ P), (toBytes2_rep F HF _ _ Q), (toBytes2_rep F HF _ _ R). reflexivity. Qed.
Lemma toBytes12_rep x a : rep12 x a -> fp12_toBytes F x = enc12 a.
Proof using HF. intros (P & Q). unfold fp12_toBytes, enc12. rewrite (toBytes6_rep _ _ P), (toBytes6_rep _ _ Q). reflexivity. Qed.
Lemma fromBytes6_rep b : bytes_ok b -> length b = 288%nat ->
  match fp6_fromBytes F b with Some x => exists a, rep6 x a /\ enc6 a = b | None => forall a, enc6 a <> b end.
Proof using HF.
  intros O L. unfold fp6_fromBytes. rewrite L. cbn [Nat.ltb Nat.leb].
  pose proof (fromBytes2_rep F HF (firstn 96 b) ltac:(apply bytes_ok_firstn, O) ltac:(rewrite firstn_length, L; reflexivity)) as H2.
  pose proof (fromBytes2_rep F HF (firstn 96 (skipn 96 b)) ltac:(apply bytes_ok_firstn, bytes_ok_skipn, O) ltac:(rewrite firstn_length, skipn_length, L; reflexivity)) as H1.
  pose proof (fromBytes2_rep F HF (skipn 192 b) ltac:(apply bytes_ok_skipn, O) ltac:(rewrite skipn_length, L; reflexivity)) as H0.
  assert (SP : forall a, enc6 a = b -> enc2 (A2 a) = firstn 96 b /\ enc2 (A1 a) = firstn 96 (skipn 96 b) /\ enc2 (A0 a) = skipn 192 b).
  { intros a <-. unfold enc6. rewrite (fs 96) by apply enc2_len. rewrite (ss 96) by apply enc2_len. rewrite (fs 96) by apply enc2_len.
    rewrite app_assoc, (ss 192) by (rewrite app_length, !enc2_len; reflexivity). refine (conj eq_refl (conj eq_refl eq_refl)). }
  destruct (fp2_fromBytes F (firstn 96 b)) as [u2|]; [|intros a E; destruct (SP a E) as (X & _); exact (H2 _ X)].
  destruct (fp2_fromBytes F (firstn 96 (skipn 96 b))) as [u1|]; [|intros a E; destruct (SP a E) as (_ & X & _); exact (H1 _ X)].
  destruct (fp2_fromBytes F (skipn 192 b)) as [u0|]; [|intros a E; destruct (SP a E) as (_ & _ & X); exact (H0 _ X)].
  destruct H2 as (a2 & R2 & E2), H1 as (a1 & R1 & E1), H0 as (a0 & R0 & E0). exists (Tower.T6 Fp2 a0 a1 a2).
  split; [exact (conj R0 (conj R1 R2))|]. unfold enc6. cbn [Tower.a0 Tower.a1 Tower.a2]. rewrite E2, E1, E0.
  rewrite <- (firstn_skipn 96 b) at 4. f_equal. rewrite <- (firstn_skipn 96 (skipn 96 b)) at 2. f_equal. rewrite sk2. reflexivity.
Qed.
Lemma fromBytes12_rep b : bytes_ok b ->
  match fp12_fromBytes F b with Some x => exists a, rep12 x a /\ enc12 a = b | None => forall a, enc12 a <> b end.
Proof using HF.
  intros O. unfold fp12_fromBytes. destruct (Nat.eqb_spec (length b) 576) as [L|L]; cbn [negb]; [|intros a <-; apply L, enc12_len].
  pose proof (fromBytes6_rep (firstn 288 b) ltac:(apply bytes_ok_firstn, O) ltac:(rewrite firstn_length, L; reflexivity)) as H1.
  pose proof (fromBytes6_rep (skipn 288 b) ltac:(apply bytes_ok_skipn, O) ltac:(rewrite skipn_length, L; reflexivity)) as H0.
  assert (SP : forall a, enc12 a = b -> enc6 (B1 a) = firstn 288 b /\ enc6 (B0 a) = skipn 288 b).
  { intros a <-. unfold enc12. rewrite (fs 288) by apply enc6_len. rewrite (ss 288) by apply enc6_len. exact (conj eq_refl eq_refl). }
  destruct (fp6_fromBytes F (firstn 288 b)) as [u1|]; [|intros a E; destruct (SP a E) as (X & _); exact (H1 _ X)].
  destruct (fp6_fromBytes F (skipn 288 b)) as [u0|]; [|intros a E; destruct (SP a E) as (_ & X); exact (H0 _ X)].
  destruct H1 as (a1 & R1 & E1), H0 as (a0 & R0 & E0). exists (Tower.T12 Fp2 a0 a1).
  split; [exact (conj R0 R1)|]. unfold enc12. cbn [Tower.b0 Tower.b1]. rewrite E1, E0. apply firstn_skipn.
Qed.
Lemma exp_order x a : rep12 x a -> rep12 (fp12_exp F x bls_order) (zp bls_r a).
Proof using HF.
  intros H. rewrite r_eq. assert (P : 0 < bls_order) by reflexivity. destruct bls_order as [|s|s]; [discriminate| |discriminate].
  cbn [fp12_exp]. rewrite zp_pos.
  exact (proj1 (exp12_rep F HF (fp12_square F) (fun _ => True) (fun x a _ => square12_rep F HF x a) I (fun _ _ _ _ => I) x a I H s)).
Qed.
Lemma valid_iff x a : rep12 x a -> (gt_IsValid F x = true <-> zp bls_r a = O12).
Proof using HF.
  intros H. unfold gt_IsValid. rewrite (equal12_rep _ _ _ _ (exp_order x a H) one12_rep). destruct (F12_dec (zp bls_r a) O12); split; congruence.
Qed.
Lemma valid_unit a : zp bls_r a = O12 -> unit12 a.
Proof using.
  intros E N. subst a. revert E. assert (P : 0 < bls_r) by exact (Z.lt_trans 0 (2 ^ 64) bls_r eq_refl r_big). destruct bls_r as [|s|s]; [discriminate| |discriminate].
  rewrite zp_pos. destruct (Pos2Nat.is_succ s) as [n ->]. cbn [BlsFrob.pw]. intros E.
  apply one_ne. rewrite <- E. ring.
Qed.
Lemma frombytes_ok b : bytes_ok b ->
  match gt_FromBytes F b with
  | Some x => exists a, rep12 x a /\ zp bls_r a = O12 /\ enc12 a = b
  | None => forall a, zp bls_r a = O12 -> enc12 a <> b
  end.
Proof using HF.
  intros O. unfold gt_FromBytes. pose proof (fromBytes12_rep b O) as H. destruct (fp12_fromBytes F b) as [x|]; [|intros a _; apply H].
  destruct H as (a & R & E). pose proof (valid_iff x a R) as V. destruct (gt_IsValid F x).
  - exists a. refine (conj R (conj (proj1 V eq_refl) E)).
  - intros a' V' E'.
    rewrite (enc12_inj _ _ (eq_trans E' (eq_sym E))) in V'. apply V in V'. discriminate V'.
Qed.
End Codec.
Lemma prod_perm l l' : Permutation l l' -> prod_ate l = prod_ate l'.
Proof. induction 1; cbn [prod_ate fold_right] in *; [reflexivity|unfold prod_ate in *; rewrite IHPermutation; reflexivity|ring|congruence]. Qed.
(** *** The check of a signature *)
Section Validate.
Variable F : fbuild.
Hypothesis HF : exact_but_square F.
Hypothesis HS : forall x, sq_ok F x.
Definition gd (l : list (mpt1 * mpt2)) (v : F12) : Prop := exists pts, Forall2 good l pts /\ prod_ate pts = v.
Lemma prod_snoc l AB : prod_ate (l ++ [AB]) = Mul12 (prod_ate l) (ate (fst AB) (snd AB)).
Proof using. induction l as [|X l IH]; cbn [app prod_ate fold_right] in *; [ring|]. fold (prod_ate l) in *. fold (prod_ate (l ++ [AB])) in *. rewrite IH. ring. Qed.
Lemma gd_pair l v P Q A B : gd l v -> rep_g1 P A -> rep_g2 Q B -> in_G2 B ->
  ModelBls.pz P = r1 \/ A = g1_inf -> ModelBls.pz Q = fp2_one \/ B = g2_inf -> gd (AddPair F l P Q) (Mul12 v (ate A B)).
Proof using HF.
  intros (pts & FA & <-) JP JQ HB ZP ZQ. unfold AddPair. rewrite (g1_iszero_rep F _ _ JP), (g2_iszero_rep F HF _ _ JQ).
  assert (SK : gd l (Mul12 (prod_ate pts) O12)) by (exists pts; split; [exact FA|ring]).
  destruct A as [|ax ay]; cbn [orb]; [exact SK|]. destruct B as [|bx by_]; [exact SK|]. clear SK.
  assert (Z1 : ModelBls.pz P = r1) by (destruct ZP as [H|H]; [exact H|discriminate]).
  assert (Z2 : ModelBls.pz Q = fp2_one) by (destruct ZQ as [H|H]; [exact H|discriminate]).
  rewrite (affine_r1 F P Z1), (affine_one2 F Q Z2). exists (pts ++ [(Weier.Aff _ ax ay, Weier.Aff _ bx by_)]). split.
  - apply Forall2_app; [exact FA|]. constructor; [|constructor]. cbn [fst snd]. refine (conj (aff1 _ _ JP Z1) (conj (aff2 _ _ JQ Z2) HB)).
  - apply prod_snoc.
Qed.
Lemma gd_check l v : gd l v -> (Check (eng_Check F) l = true <-> v = O12).
Proof using HF HS.
  intros (pts & FA & <-). destruct l as [|x l]; cbn [Check]; [inversion FA; subst; split; reflexivity|]. exact (check_rep F HF HS _ _ FA).
Qed.
Lemma mul_eq a b c : Mul12 b c = O12 -> (Mul12 a c = O12 <-> a = b).
Proof using.
  intros E. split; [|intros ->; exact E]. intros E'. transitivity (Mul12 a (Mul12 b c)); [rewrite E; ring|]. transitivity (Mul12 (Mul12 a c) b); [ring|]. rewrite E'. ring.
Qed.
Lemma validate_ate P S PA A PH H : rep_g2 P S -> in_G2 S -> ModelBls.pz P = fp2_one \/ P = g_Zero (C2 F) ->
  rep_g1 PA A -> in_G1 A -> ModelBls.pz PA = r1 \/ PA = g_Zero (C1 F) -> affine2 PH H -> in_G2 H ->
  exists b, ValidatePairing F (eng_Check F) g1One P (Some PA) (Some PH) = Ret b /\ (b = true <-> ate g1_gen S = ate A H).
Proof using HF HS.
  intros JS IS ZS JA IA ZA AH HH. unfold ValidatePairing. eexists. split; [reflexivity|].
  assert (JH : rep_g2 PH H /\ ModelBls.pz PH = fp2_one).
  { destruct H as [|x y]; [contradiction|]. destruct AH as (HX & HY & HZ). split; [|exact HZ]. exists x, y, oo2.
    rewrite HZ. refine (conj HX (conj HY (conj one2_rep _))). apply (Jac.jac_1 _ _ _ _ _ _ _ _ _ Kp2). }
  destruct JH as [JH ZH].
  assert (ZS' : ModelBls.pz P = fp2_one \/ S = g2_inf).
  { destruct ZS as [E|E]; [left; exact E|right]. pose proof (g2_iszero_rep F HF _ _ JS) as I. rewrite E in I.
    change (g_IsZero (C2 F) (g_Zero (C2 F))) with true in I. destruct S; [reflexivity|discriminate]. }
  assert (G0 : gd [] O12) by (exists []; split; [constructor|reflexivity]).
  pose proof (gd_pair [] O12 g1One P g1_gen S G0 gen_rep JS IS (or_introl eq_refl) ZS') as G1'.
  destruct (g1_neg_rep F HF _ _ JA) as [JN ZN].
  assert (ZA' : ModelBls.pz (g_Neg (C1 F) PA) = r1 \/ g1_neg A = g1_inf).
  { destruct ZA as [E|E]; [left; rewrite ZN; exact E|right]. pose proof (g1_iszero_rep F _ _ JA) as I. rewrite E in I.
    change (g_IsZero (C1 F) (g_Zero (C1 F))) with true in I. destruct A; [reflexivity|discriminate]. }
  pose proof (gd_pair _ _ _ _ _ _ G1' JN JH HH ZA' (or_introl ZH)) as G2'.
  rewrite (gd_check _ _ G2'). replace (Mul12 O12 (ate g1_gen S)) with (ate g1_gen S) by ring.
  apply mul_eq, ate_neg, IA.
Qed.
End Validate.
