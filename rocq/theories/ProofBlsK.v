(** Aggregation, signing and verification of BLS signatures. *)
From Coq Require Import ZArith List Bool Lia Znumtheory Permutation Ring Field.
From Verif Require Import Base ModelECDSA ModelBlsF SpecBls ProofBlsF ModelBls ProofBlsE SpecBlsG BlsPrime ProofBlsH Fp BlsFp2 BlsFrob ProofBlsI Weier Jac Group EC ProofBlsG SpecBlsSig SpecBlsPair ProofBlsJ Primes BlsPrimes Mont63.
Import ListNotations.
Local Open Scope Z_scope.
Add Field KFK1 : Kp1.
Add Field KFK2 : Kp2.

(** ** G1: the generator has order r *)
Local Transparent blsp.
Lemma blsp_gt3 : 3 < blsp. Proof. reflexivity. Qed.
Lemma disc1 : (4 * 0 ^ 3 + 27 * 4 ^ 2) mod blsp <> 0. Proof. vm_compute. discriminate. Qed.
Local Opaque blsp.
Lemma Hf1 : w_field_ok (E1 blsp).
Proof. constructor; cbn [w_p w_a w_b E1]; [exact blsp_prime|exact blsp_gt3|exact disc1]. Qed.
Lemma gen_on : w_on (E1 blsp) (w_G (E1 blsp)).
Proof. apply paff_on_iff. cbn [w_p w_a w_b w_gx w_gy E1]. exact bls_on. Qed.
Lemma gen_order : w_mul (E1 blsp) blsr (w_G (E1 blsp)) = pinf (E1 blsp).
Proof.
  refine (f_check_ok ctx_blsp _ _ _ (E1 blsp) ctx_blsp_ok (Z.divide_refl _) Hf1 _ _ _ gen_on blsr _ (proj1 bls_size) bls_chain); apply c_of_rel, ctx_blsp_ok.
Qed.
Local Transparent blsr blsgx blsgy.
Lemma blsr_eq : blsr = bls_r. Proof. reflexivity. Qed.
Lemma gen_eq : g1_gen = w_G (E1 bls_p). Proof. reflexivity. Qed.
Local Opaque blsr blsgx blsgy.
Lemma gen_in : in_G1 g1_gen.
Proof.
  pose proof gen_on as O. pose proof gen_order as R. rewrite <- p_blsp in O, R. rewrite gen_eq. split; [exact O|].
  rewrite <- blsr_eq. exact R.
Qed.
Lemma gen_rep : rep_g1 g1One g1_gen.
Proof.
  exists (fp_of p 0x17f1d3a73197d7942695638c4fa9ac0fc3688c4f9774b905a14e3a3f171bac586c55e83ff97a1aeffb3af00adb22c6bb),
    (fp_of p 0x8b3f481e3aaa0f1a09e30ed741d8ae4fcf5e095d5d00af600db18cb2c04b3edd03cc744a2888ae40caa232946c5e7e1), (fp_of p 1).
  cbn [px py pz g1One]. refine (conj _ (conj _ (conj r1_rep _))); [| |apply (jac_1 _ _ _ _ _ _ _ _ _ Kp1)].
  - apply rep1_check; [split; [reflexivity|repeat constructor; lia]| |]; vm_compute; reflexivity.
  - apply rep1_check; [split; [reflexivity|repeat constructor; lia]| |]; vm_compute; reflexivity.
Qed.

(** ** Sums in G2 *)
Lemma torsion_group (T : Type) zero add neg (ok : T -> Prop) (n : Z) : is_group T zero add neg ok ->
  is_group T zero add neg (fun P => ok P /\ zmul zero add neg n P = zero).
Proof.
  intros G. constructor.
  - split; [exact (g_zero _ _ _ _ _ G)|apply (zmul_zero _ _ _ _ _ G)].
  - intros P Q [OP RP] [OQ RQ]. split; [exact (g_add _ _ _ _ _ G _ _ OP OQ)|]. rewrite (zmul_padd _ _ _ _ _ G), RP, RQ by assumption. apply (g_0_l _ _ _ _ _ G), (g_zero _ _ _ _ _ G).
  - intros P [OP RP]. split; [exact (g_neg _ _ _ _ _ G _ OP)|]. rewrite (zmul_negp _ _ _ _ _ G), RP by assumption. apply (gneg_zero _ _ _ _ _ G).
  - intros P Q R [OP _] [OQ _] [OR _]. apply (g_assoc _ _ _ _ _ G); assumption.
  - intros P Q [OP _] [OQ _]. apply (g_comm _ _ _ _ _ G); assumption.
  - intros P [OP _]. apply (g_0_l _ _ _ _ _ G); assumption.
  - intros P [OP _]. apply (g_inv _ _ _ _ _ G); assumption.
Qed.
Lemma G2_closed : is_group g2pt g2_inf g2_add g2_neg in_G2.
Proof. exact (torsion_group _ _ _ _ _ bls_r G2). Qed.
Lemma G1_closed : is_group g1pt g1_inf g1_add g1_neg in_G1.
Proof. exact (torsion_group _ _ _ _ _ bls_r G1). Qed.
Local Opaque bls_r.
Definition g2_sum (l : list g2pt) : g2pt := fold_right g2_add g2_inf l.
Lemma sum_in l : Forall in_G2 l -> in_G2 (g2_sum l).
Proof. induction 1 as [|Q l HQ _ IH]; [exact (g_zero _ _ _ _ _ G2_closed)|]. exact (g_add _ _ _ _ _ G2_closed _ _ HQ IH). Qed.
Lemma sum_app l l' : Forall in_G2 l -> Forall in_G2 l' -> g2_sum (l ++ l') = g2_add (g2_sum l) (g2_sum l').
Proof.
  intros H H'. induction H as [|Q l HQ HL IH]; cbn [app g2_sum fold_right].
  - symmetry. apply (g_0_l _ _ _ _ _ G2_closed). apply sum_in, H'.
  - fold (g2_sum (l ++ l')) (g2_sum l). rewrite IH. apply (g_assoc _ _ _ _ _ G2_closed); auto using sum_in.
Qed.
Lemma sum_perm l l' : Permutation l l' -> Forall in_G2 l -> g2_sum l = g2_sum l'.
Proof.
  induction 1 as [|x l l' P IH|x y l|l l' l'' P IH P' IH']; intros H; [reflexivity| | |].
  - inversion_clear H. cbn [g2_sum fold_right]. fold (g2_sum l) (g2_sum l'). rewrite IH by assumption. reflexivity.
  - inversion_clear H as [|? ? Hy H']. inversion_clear H' as [|? ? Hx HL]. cbn [g2_sum fold_right]. fold (g2_sum l).
    apply (gadd_swap _ _ _ _ _ G2_closed); auto using sum_in.
  - rewrite IH by assumption. apply IH'. eapply Permutation_Forall; eassumption.
Qed.

(** ** Aggregation *)
Section Agg.
Variable F : fbuild.
Hypothesis HF : exact_but_square F.
Definition agg_step (acc : option (ModelBls.point fe2)) (s : bytes) : option (ModelBls.point fe2) :=
  match acc with
  | None => None
  | Some q => match g_FromCompressed (C2 F) s with None => None | Some p => Some (g_Add (C2 F) q p) end
  end.
Lemma agg_none l : fold_left agg_step l None = None.
Proof using. induction l; [reflexivity|]. assumption. Qed.
Lemma agg_some pts : Forall in_G2 pts -> forall P Q, rep_g2 P Q -> in_G2 Q ->
  exists P', fold_left agg_step (map sig_bytes pts) (Some P) = Some P' /\ rep_g2 P' (g2_add Q (g2_sum pts)).
Proof using HF.
  induction 1 as [|X pts HX HP IH]; intros P Q J HQ; cbn [map fold_left g2_sum fold_right].
  - exists P. split; [reflexivity|]. rewrite (gadd_0_r _ _ _ _ _ G2_closed) by exact HQ. exact J.
  - fold (g2_sum pts). cbn [agg_step]. destruct (sig_dec_complete F HF X HX) as (P1 & -> & J1 & _).
    destruct (IH (g_Add (C2 F) P P1) (g2_add Q X)) as (P' & E & J').
    + apply (g2_add_rep F HF); [exact J|exact J1|apply HQ|apply HX].
    + exact (g_add _ _ _ _ _ G2_closed _ _ HQ HX).
    + exists P'. split; [exact E|]. rewrite (g_assoc _ _ _ _ _ G2_closed); auto using sum_in.
Qed.
Lemma agg_inv l : Forall (fun b => bytes_ok b /\ length b = 96%nat) l -> forall P P', fold_left agg_step l (Some P) = Some P' ->
  exists pts, Forall in_G2 pts /\ l = map sig_bytes pts.
Proof using HF.
  induction 1 as [|b l [O L] HL IH]; intros P P' E; cbn [fold_left] in E.
  - exists []. split; [constructor|reflexivity].
  - cbn [agg_step] in E. destruct (g_FromCompressed (C2 F) b) as [P1|] eqn:D; [|rewrite agg_none in E; discriminate].
    destruct (sig_dec_sound F HF b P1 O L D) as (Q & _ & HQ & EQ & _). destruct (IH _ _ E) as (pts & HP & ->).
    exists (Q :: pts). split; [constructor; assumption|]. cbn [map]. rewrite EQ. reflexivity.
Qed.
Lemma agg_def sigs : bls_Aggregate F sigs = match fold_left agg_step sigs (Some (g_Blank (C2 F))) with None => None | Some q => Some (g_ToCompressed (C2 F) q) end.
Proof using. reflexivity. Qed.
Lemma agg_long sigs : Forall (fun b => (96 <= length b)%nat) sigs -> bls_Aggregate F sigs = bls_Aggregate F (map (firstn 96) sigs).
Proof using.
  intros H. rewrite !agg_def. assert (E : forall acc, fold_left agg_step sigs acc = fold_left agg_step (map (firstn 96) sigs) acc).
  { induction H as [|b l L _ IH]; intros acc; [reflexivity|]. cbn [map fold_left]. rewrite IH. f_equal.
    destruct acc as [q|]; [|reflexivity]. cbn [agg_step]. change 96%nat with (c_len (C2 F)). rewrite (dec_long (C2 F) b L). reflexivity. }
  rewrite E. reflexivity.
Qed.
Lemma agg_short sigs b : In b sigs -> (length b < 96)%nat -> bls_Aggregate F sigs = None.
Proof using.
  intros HI L. rewrite agg_def. assert (E : forall acc, fold_left agg_step sigs acc = None).
  { revert HI. induction sigs as [|c l IH]; intros HI acc; [contradiction|]. cbn [fold_left]. destruct HI as [->|HI]; [|apply IH, HI].
    replace (agg_step acc b) with (@None (ModelBls.point fe2)); [apply agg_none|]. destruct acc as [q|]; [|reflexivity]. cbn [agg_step].
    unfold g_FromCompressed. cbn [C2 c_len]. rewrite (proj2 (Nat.ltb_lt _ _) L). reflexivity. }
  rewrite E. reflexivity.
Qed.
Lemma agg_value pts : Forall in_G2 pts -> exists P, fold_left agg_step (map sig_bytes pts) (Some (g_Blank (C2 F))) = Some P /\
  rep_g2 P (g2_sum pts) /\ (inv2 F (ModelBls.pz P) -> bls_Aggregate F (map sig_bytes pts) = Some (sig_bytes (g2_sum pts))).
Proof using HF.
  intros HP. destruct (agg_some pts HP _ _ (g2_blank_rep F HF) (g_zero _ _ _ _ _ G2_closed)) as (P & E & J).
  rewrite (g_0_l _ _ _ _ _ G2_closed) in J by (apply sum_in, HP). exists P. split; [exact E|]. split; [exact J|]. intros HI.
  rewrite agg_def, E. f_equal. apply (sig_enc F HF); [exact J|right; left; exact HI].
Qed.
End Agg.

(** ** Pairings *)
Lemma g1_iszero_rep F P A : rep_g1 P A -> g_IsZero (C1 F) P = match A with Weier.Inf _ => true | _ => false end.
Proof.
  intros (X & Y & Z & HX & HY & HZ & <-). unfold g_IsZero. cbn [C1 c_isZero]. rewrite (iszero_rep _ _ HZ). unfold Jac.jac.
  destruct (fp_dec Z (fp_of p 0)); reflexivity.
Qed.
Lemma one_ne1 : fp_of p 1 <> fp_of p 0. Proof. apply small_ne. lia. Qed.
Lemma aff1 P A : rep_g1 P A -> ModelBls.pz P = r1 -> affine1 P A.
Proof.
  intros (X & Y & Z & HX & HY & HZ & <-) E. rewrite E in HZ. pose proof (rep1_fun _ _ _ HZ r1_rep) as ->.
  rewrite (jac_1 _ _ _ _ _ _ _ _ _ Kp1). cbn [affine1]. refine (conj HX (conj HY E)).
Qed.
Lemma aff2 P A : rep_g2 P A -> ModelBls.pz P = fp2_one -> affine2 P A.
Proof.
  intros (X & Y & Z & HX & HY & HZ & <-) E. rewrite E in HZ. pose proof (rep2_fun _ _ _ HZ one2_rep) as ->.
  rewrite (jac_1 _ _ _ _ _ _ _ _ _ Kp2). cbn [affine2]. refine (conj HX (conj HY E)).
Qed.
Lemma affine_r1 F P : ModelBls.pz P = r1 -> g_Affine (C1 F) P = P.
Proof. intros E. unfold g_Affine. cbn [C1 c_equal c_one]. rewrite E. destruct (g_IsZero (C1 F) P); reflexivity. Qed.
Lemma affine_one2 F P : ModelBls.pz P = fp2_one -> g_Affine (C2 F) P = P.
Proof. intros E. unfold g_Affine. cbn [C2 c_equal c_one]. rewrite E. destruct (g_IsZero (C2 F) P); reflexivity. Qed.
Lemma dec_shape {T} (C : cfield T) b P : g_FromCompressed C b = Some P -> ModelBls.pz P = c_one C \/ P = g_Zero C.
Proof.
  unfold g_FromCompressed. destruct (Nat.ltb _ _); [discriminate|]. cbv zeta. destruct (negb (bit_set _ 128)); [discriminate|].
  destruct (bit_set _ 64); [destruct (only_first _ _); [|discriminate]; intros H; injection H as <-; auto|].
  destruct (c_fromBytes C _) as [x|]; [|discriminate]. destruct (c_sqrt C _) as [y ok]. destruct ok; cbn [negb]; [|discriminate].
  destruct (negb (g_InCorrectSubgroup C _)); [discriminate|]. intros H. injection H as <-. left. reflexivity.
Qed.
Section Ver.
Variable F : fbuild.
Hypothesis HF : exact_but_square F.
Variable pairs_one : list (ModelBls.point fe * ModelBls.point fe2) -> bool.
Variables (GT : Type) (one : GT) (mul : GT -> GT -> GT) (inv : GT -> GT) (ok : GT -> Prop) (e : g1pt -> g2pt -> GT).
Hypothesis PR : pairing one mul inv ok e.
Hypothesis DP : decides_pairing pairs_one one mul e.
Notation mg k := (g1_mul k g1_gen).
Lemma g1_neg_rep P A : rep_g1 P A -> rep_g1 (g_Neg (C1 F) P) (g1_neg A) /\ ModelBls.pz (g_Neg (C1 F) P) = ModelBls.pz P.
Proof using HF.
  intros (X & Y & Z & HX & HY & HZ & <-). split; [|reflexivity]. exists X, (fp_opp Y), Z. cbn [g_Neg px py pz].
  refine (conj HX (conj (neg_rep F HF _ _ HY) (conj HZ _))).
  unfold Jac.jac. destruct (fp_dec Z (fp_of p 0)) as [|N]; [reflexivity|]. unfold g1_neg. cbn [Weier.pneg]. f_equal. field. exact N.
Qed.
Lemma e_0_l Q : in_G2 Q -> e g1_inf Q = one.
Proof using PR.
  intros HQ. pose proof (e_add_l _ _ _ _ _ PR 0 0 Q HQ) as E. change (0 + 0) with 0 in E. pose proof (e_ok _ _ _ _ _ PR 0 Q HQ) as O.
  change (mg 0) with g1_inf in *.
  apply (gcancel _ _ _ _ _ (gt_group _ _ _ _ _ PR) (e g1_inf Q)); [exact O|exact O|apply (g_zero _ _ _ _ _ (gt_group _ _ _ _ _ PR))|].
  rewrite <- E. symmetry. apply (gadd_0_r _ _ _ _ _ (gt_group _ _ _ _ _ PR)), O.
Qed.
Lemma e_0_r a : e (mg a) g2_inf = one.
Proof using PR.
  pose proof (g_zero _ _ _ _ _ G2_closed) as HQ. pose proof (e_add_r _ _ _ _ _ PR a g2_inf g2_inf HQ HQ) as E. pose proof (e_ok _ _ _ _ _ PR a _ HQ) as O.
  change (g2_add g2_inf g2_inf) with g2_inf in E.
  apply (gcancel _ _ _ _ _ (gt_group _ _ _ _ _ PR) (e (mg a) g2_inf)); [exact O|exact O|apply (g_zero _ _ _ _ _ (gt_group _ _ _ _ _ PR))|].
  rewrite <- E. symmetry. apply (gadd_0_r _ _ _ _ _ (gt_group _ _ _ _ _ PR)), O.
Qed.
Lemma mg_on a : g1_on (mg a). Proof using. apply (zmul_ok _ _ _ _ _ G1). exact (proj1 gen_in). Qed.
Lemma mg_neg a : g1_neg (mg a) = mg (- a).
Proof using. symmetry. apply (zmul_neg _ _ _ _ _ G1). exact (proj1 gen_in). Qed.
Lemma mg_1 : mg 1 = g1_gen. Proof using. apply (zmul_1 _ _ _ _ _ G1). exact (proj1 gen_in). Qed.
Lemma e_swap k Q : 0 <= k -> in_G2 Q -> e (mg k) Q = e g1_gen (g2_mul k Q).
Proof using PR.
  intros Hk HQ. revert k Hk. apply natlike_ind.
  - change (mg 0) with g1_inf. change (g2_mul 0 Q) with g2_inf. rewrite (e_0_l Q HQ), <- mg_1. symmetry. apply e_0_r.
  - intros k Hk IH. unfold Z.succ. rewrite Z.add_comm, (e_add_l _ _ _ _ _ PR) by exact HQ. rewrite IH, mg_1, (Z.add_comm 1 k).
    unfold g2_mul. rewrite (zmul_succ _ _ _ _ _ G2_closed) by exact HQ. fold (g2_mul k Q).
    assert (HK : in_G2 (g2_mul k Q)) by exact (zmul_ok _ _ _ _ _ G2_closed k Q HQ).
    pose proof (e_add_r _ _ _ _ _ PR 1 Q (g2_mul k Q) HQ HK) as E. rewrite mg_1 in E. rewrite E. reflexivity.
Qed.
(** one more pair; pairs with a point at infinity are skipped *)
Definition good (l : list (ModelBls.point fe * ModelBls.point fe2)) (v : GT) : Prop :=
  exists pts, Forall2 (fun PQ aB => affine1 (fst PQ) (mg (fst aB)) /\ affine2 (snd PQ) (snd aB) /\ in_G2 (snd aB)) l pts /\
  fold_right (fun aB acc => mul (e (mg (fst aB)) (snd aB)) acc) one pts = v.
Lemma prod_ok l (pts : list (Z * g2pt)) : Forall2 (fun PQ aB => affine1 (fst PQ) (mg (fst aB)) /\ affine2 (snd PQ) (snd aB) /\ in_G2 (snd aB)) l pts ->
  ok (fold_right (fun aB acc => mul (e (mg (fst aB)) (snd aB)) acc) one pts).
Proof using PR.
  induction 1 as [|PQ aB l pts (_ & _ & H) _ IH]; cbn [fold_right]; [apply (g_zero _ _ _ _ _ (gt_group _ _ _ _ _ PR))|].
  apply (g_add _ _ _ _ _ (gt_group _ _ _ _ _ PR)); [apply (e_ok _ _ _ _ _ PR), H|exact IH].
Qed.
Lemma add_pair l v P Q a B : good l v -> rep_g1 P (mg a) -> rep_g2 Q B -> in_G2 B ->
  ModelBls.pz P = r1 \/ mg a = g1_inf -> ModelBls.pz Q = fp2_one \/ B = g2_inf ->
  good (AddPair F l P Q) (mul v (e (mg a) B)) /\ ok v.
Proof using HF PR.
  intros (pts & FA & <-) JP JQ HB ZP ZQ. pose proof (prod_ok _ _ FA) as OV. split; [|exact OV]. pose proof (gt_group _ _ _ _ _ PR) as G.
  unfold AddPair. rewrite (g1_iszero_rep F _ _ JP), (g2_iszero_rep F HF _ _ JQ).
  assert (SK : e (mg a) B = one -> good l (mul (fold_right (fun aB acc => mul (e (mg (fst aB)) (snd aB)) acc) one pts) (e (mg a) B))).
  { intros ->. rewrite (gadd_0_r _ _ _ _ _ G) by exact OV. exists pts. split; [exact FA|reflexivity]. }
  destruct (mg a) as [|ax ay] eqn:EA; cbn [orb].
  { apply SK. apply e_0_l, HB. }
  destruct B as [|bx by_]; [apply SK; rewrite <- EA; apply e_0_r|]. clear SK. rewrite <- EA in *.
  assert (Z1 : ModelBls.pz P = r1) by (destruct ZP as [H|H]; [exact H|rewrite EA in H; discriminate]).
  assert (Z2 : ModelBls.pz Q = fp2_one) by (destruct ZQ as [H|H]; [exact H|discriminate]).
  rewrite (affine_r1 F P Z1), (affine_one2 F Q Z2).
  exists (pts ++ [(a, Weier.Aff _ bx by_)]). split.
  - apply Forall2_app; [exact FA|]. constructor; [|constructor]. cbn [fst snd]. refine (conj (aff1 _ _ JP Z1) (conj (aff2 _ _ JQ Z2) HB)).
  - pose proof (e_ok _ _ _ _ _ PR a _ HB) as OE. clear - FA PR G OE OV. revert OV. induction FA as [|PQ aB l pts (_ & _ & H) FA IH]; intros OV; cbn [app fold_right fst snd].
    + rewrite (gadd_0_r _ _ _ _ _ G), (g_0_l _ _ _ _ _ G) by exact OE. reflexivity.
    + pose proof (prod_ok _ _ FA) as OV'. rewrite IH by exact OV'. apply (g_assoc _ _ _ _ _ G); [apply (e_ok _ _ _ _ _ PR), H|exact OV'|exact OE].
Qed.
Lemma check_good l v : good l v -> (Check pairs_one l = true <-> v = one).
Proof using DP.
  intros (pts & FA & <-). destruct l as [|x l]; cbn [Check].
  - inversion FA; subst. split; reflexivity.
  - apply DP; [discriminate|exact FA].
Qed.
(** The key is k times the generator and the message is hashed to H *)
Variables (k : Z) (PA : ModelBls.point fe) (H : g2pt) (PH : ModelBls.point fe2).
Hypothesis Hk : 0 <= k.
Hypothesis JA : rep_g1 PA (mg k).
Hypothesis ZA : ModelBls.pz PA = r1 \/ PA = g_Zero (C1 F).
Hypothesis JH : rep_g2 PH H.
Hypothesis ZH : ModelBls.pz PH = fp2_one \/ H = g2_inf.
Hypothesis HH : in_G2 H.
Lemma validate_iff P S : rep_g2 P S -> in_G2 S -> ModelBls.pz P = fp2_one \/ P = g_Zero (C2 F) ->
  exists b, ValidatePairing F pairs_one g1One P (Some PA) (Some PH) = Ret b /\ (b = true <-> S = g2_mul k H).
Proof using HF PR DP Hk JA ZA JH ZH HH.
  intros JS HS ZS. unfold ValidatePairing. eexists. split; [reflexivity|]. pose proof (gt_group _ _ _ _ _ PR) as G.
  assert (Z0 : good [] one) by (exists []; split; [constructor|reflexivity]).
  assert (ZS' : ModelBls.pz P = fp2_one \/ S = g2_inf).
  { destruct ZS as [E|E]; [left; exact E|right]. pose proof (g2_iszero_rep F HF _ _ JS) as I. rewrite E in I.
    change (g_IsZero (C2 F) (g_Zero (C2 F))) with true in I. destruct S; [reflexivity|discriminate]. }
  destruct (add_pair [] one g1One P 1 S Z0) as [G1' _]; [rewrite mg_1; exact gen_rep|exact JS|exact HS|left; reflexivity|exact ZS'|].
  destruct (g1_neg_rep _ _ JA) as [JN ZN]. rewrite mg_neg in JN.
  destruct (add_pair _ _ (g_Neg (C1 F) PA) PH (- k) H G1' JN JH HH) as [G2' _]; [|exact ZH|].
  { destruct ZA as [E|E]; [left; rewrite ZN; exact E|right]. pose proof (g1_iszero_rep F _ _ JA) as I. rewrite E in I.
    change (g_IsZero (C1 F) (g_Zero (C1 F))) with true in I. rewrite <- mg_neg. destruct (mg k); [reflexivity|discriminate]. }
  rewrite (check_good _ _ G2'). rewrite mg_1, (g_0_l _ _ _ _ _ G) by (rewrite <- mg_1; apply (e_ok _ _ _ _ _ PR), HS).
  assert (HK : in_G2 (g2_mul k H)) by exact (zmul_ok _ _ _ _ _ G2_closed k H HH).
  assert (INV : mul (e (mg k) H) (e (mg (- k)) H) = one).
  { rewrite <- (e_add_l _ _ _ _ _ PR) by exact HH. replace (k + - k) with 0 by lia. apply e_0_l, HH. }
  pose proof (e_ok _ _ _ _ _ PR 1 _ HS) as O1. rewrite mg_1 in O1. pose proof (e_ok _ _ _ _ _ PR k _ HH) as O2. pose proof (e_ok _ _ _ _ _ PR (- k) _ HH) as O3.
  rewrite <- INV. split.
  - intros E. rewrite (g_comm _ _ _ _ _ G (e g1_gen S)), (g_comm _ _ _ _ _ G (e (mg k) H)) in E by assumption.
    apply (gcancel _ _ _ _ _ G) in E; [|assumption..]. rewrite (e_swap k H Hk HH) in E.
    assert (D : e g1_gen (g2_add S (g2_neg (g2_mul k H))) = one).
    { pose proof (g_neg _ _ _ _ _ G2_closed _ HK) as HN. rewrite <- mg_1 in E |- *. rewrite (e_add_r _ _ _ _ _ PR), E, <- (e_add_r _ _ _ _ _ PR) by assumption.
      rewrite (g_inv _ _ _ _ _ G2_closed) by exact HK. apply e_0_r. }
    apply (e_sep _ _ _ _ _ PR) in D; [|apply (g_add _ _ _ _ _ G2_closed); [exact HS|apply (g_neg _ _ _ _ _ G2_closed), HK]].
    transitivity (g2_add (g2_add S (g2_neg (g2_mul k H))) (g2_mul k H)).
    + rewrite <- (g_assoc _ _ _ _ _ G2_closed), (gneg_l _ _ _ _ _ G2_closed), (gadd_0_r _ _ _ _ _ G2_closed) by (assumption || apply (g_neg _ _ _ _ _ G2_closed), HK). reflexivity.
    + rewrite D. apply (g_0_l _ _ _ _ _ G2_closed), HK.
  - intros ->. rewrite (e_swap k H Hk HH). reflexivity.
Qed.
End Ver.

(** ** Keys, for builds that square correctly *)
Section Keys.
Variable F : fbuild.
Hypothesis HF : exact_but_square F.
Hypothesis HS : forall x, sq_ok F x.
Lemma key_dec_sound b P : bytes_ok b -> length b = 48%nat -> g_FromCompressed (C1 F) b = Some P ->
  exists Q, rep_g1 P Q /\ in_G1 Q /\ key_bytes Q = b /\ (ModelBls.pz P = r1 \/ P = g_Zero (C1 F)).
Proof using HF HS.
  intros O L D. destruct (dec_sound _ _ _ _ _ _ _ _ _ Kp1 fp_dec _ (C1 F) rep1 _ (C1_rep F HF HS) char2_1 nonsing_1 _ _ (C1_codec F HF HS) b P O L D) as (Q & J & W & E & Z).
  exists Q. split; [exact J|]. split; [exact (proj2 (in_wcond1 Q) W)|]. split; [rewrite <- E; symmetry; apply key_encp|exact Z].
Qed.
Lemma key_dec_complete Q : in_G1 Q -> exists P, g_FromCompressed (C1 F) (key_bytes Q) = Some P /\ rep_g1 P Q /\ (ModelBls.pz P = r1 \/ P = g_Zero (C1 F)).
Proof using HF HS.
  intros W. pose proof (proj1 (in_wcond1 Q) W) as W'.
  destruct (dec_complete _ _ _ _ _ _ _ _ _ Kp1 fp_dec _ (C1 F) rep1 _ (C1_rep F HF HS) char2_1 nonsing_1 _ _ (C1_codec F HF HS) Q W') as (P & D & J & Z).
  exists P. rewrite <- (key_encp F). split; [exact D|]. split; [exact J|exact Z].
Qed.
Lemma key_enc P Q : rep_g1 P Q -> g_ToCompressed (C1 F) P = key_bytes Q.
Proof using HF HS.
  intros J. rewrite <- (key_encp F). apply (enc_spec _ _ _ _ _ _ _ _ _ Kp1 fp_dec _ (C1 F) rep1 _ (C1_rep F HF HS) nonsing_1 _ _ (C1_codec F HF HS) P Q J). right; left; exact I.
Qed.
Lemma key_bytes_ok Q : bytes_ok (key_bytes Q) /\ length (key_bytes Q) = 48%nat.
Proof using HF HS.
  rewrite <- (key_encp F).
  exact (encp_ok _ _ _ _ _ _ _ (C1 F) rep1 nonsing_1 _ _ (C1_codec F HF HS) Q).
Qed.
End Keys.
(** the portable code with squaring by multiplication *)
Definition repaired : fbuild := mkF fb_add fb_sub fb_mul fb_double fb_neg (fun x => fb_mul x x) fb_ladd fb_ldouble fb_lsub.
Lemma repaired_exact : exact_but_square repaired.
Proof. pose proof portable_exact as [A1 A2 A3 A4 A5 A6 A7 A8]. constructor; assumption. Qed.
Lemma repaired_square x : sq_ok repaired x.
Proof. intros u H. exact (pb_mul x x u u H H). Qed.
Lemma key_inj Q1 Q2 : in_G1 Q1 -> in_G1 Q2 -> key_bytes Q1 = key_bytes Q2 -> Q1 = Q2.
Proof.
  intros W1 W2 E. pose proof (proj1 (in_wcond1 Q1) W1) as W1'. pose proof (proj1 (in_wcond1 Q2) W2) as W2'. rewrite <- !(key_encp repaired) in E.
  exact (encp_inj _ _ _ _ _ _ _ _ _ Kp1 fp_dec _ (C1 repaired) rep1 _ (C1_rep repaired repaired_exact repaired_square) char2_1 nonsing_1 _ _ (C1_codec repaired repaired_exact repaired_square) Q1 Q2 W1' W2' E).
Qed.

(** ** A pairing exists: by discrete logarithms *)
Definition pt_dec (P Q : g1pt) : {P = Q} + {P <> Q}.
Proof.
  destruct P as [|x y], Q as [|x' y']; [left; reflexivity|right; discriminate|right; discriminate|].
  destruct (fp_dec x x') as [->|N]; [|right; congruence]. destruct (fp_dec y y') as [->|N]; [left; reflexivity|right; congruence].
Defined.
Definition dl (n : nat) (P : g1pt) : Z :=
  match find (fun a => if pt_dec (g1_mul (Z.of_nat a) g1_gen) P then true else false) (seq 0 n) with Some a => Z.of_nat a | None => 0 end.
Definition toy (P : g1pt) (Q : g2pt) : g2pt := g2_mul (dl (Z.to_nat bls_r) P) Q.
Lemma r_pos : 0 < bls_r. Proof. Local Transparent bls_r. reflexivity. Local Opaque bls_r. Qed.
Lemma r_prime : prime bls_r. Proof. rewrite <- blsr_eq. exact blsr_prime. Qed.
Lemma toy_gen a Q : in_G2 Q -> toy (g1_mul a g1_gen) Q = g2_mul a Q.
Proof.
  intros HQ. unfold toy, dl. pose proof r_pos as R0. pose proof G1 as H1. pose proof gen_in as [GO GR].
  destruct (find _ _) as [a'|] eqn:E.
  - apply find_some in E. destruct E as [_ E]. destruct (pt_dec _ _) as [E'|]; [|discriminate]. clear E.
    assert (M : (Z.of_nat a' - a) mod bls_r = 0).
    { apply (zmul_order _ _ _ _ _ H1 bls_r (Z.of_nat a' - a) g1_gen GO r_prime GR); [discriminate|].
      rewrite (zmul_sub _ _ _ _ _ H1) by exact GO. fold (g1_mul (Z.of_nat a') g1_gen) (g1_mul a g1_gen). rewrite E'. apply (g_inv _ _ _ _ _ H1).
      apply (zmul_ok _ _ _ _ _ H1), GO. }
    destruct HQ as [HO HR]. unfold g2_mul. rewrite <- (zmul_mod _ _ _ _ _ G2 bls_r (Z.of_nat a')), <- (zmul_mod _ _ _ _ _ G2 bls_r a) by assumption. f_equal.
    clear - M R0. set (r := bls_r) in *. clearbody r. apply Z.mod_divide in M; [|lia]. destruct M as [c M]. replace (Z.of_nat a') with (a + c * r) by lia. apply Z.mod_add. lia.
  - exfalso. pose proof (find_none _ _ E (Z.to_nat (a mod bls_r))) as N. pose proof (Z.mod_pos_bound a bls_r R0) as B.
    assert (I : In (Z.to_nat (a mod bls_r)) (seq 0 (Z.to_nat bls_r))) by (apply in_seq; clear - B; lia).
    specialize (N I). cbv beta in N. destruct (pt_dec (g1_mul (Z.of_nat (Z.to_nat (a mod bls_r))) g1_gen) (g1_mul a g1_gen)) as [|X]; [discriminate N|]. apply X. rewrite Z2Nat.id by (clear - B; lia).
    apply (zmul_mod _ _ _ _ _ H1); assumption.
Qed.
Lemma toy_pairing : pairing g2_inf g2_add g2_neg in_G2 toy.
Proof.
  pose proof G2_closed as G. constructor.
  - exact G.
  - intros a Q HQ. rewrite toy_gen by exact HQ. apply (zmul_ok _ _ _ _ _ G), HQ.
  - intros a b Q HQ. rewrite !toy_gen by exact HQ. apply (zmul_add _ _ _ _ _ G), HQ.
  - intros a Q Q' HQ HQ'. rewrite !toy_gen by (assumption || exact (g_add _ _ _ _ _ G _ _ HQ HQ')). apply (zmul_padd _ _ _ _ _ G); assumption.
  - intros Q HQ E. rewrite <- (zmul_1 _ _ _ _ _ G1 g1_gen) in E by exact (proj1 gen_in). fold (g1_mul 1 g1_gen) in E. rewrite toy_gen in E by exact HQ.
    unfold g2_mul in E. rewrite (zmul_1 _ _ _ _ _ G) in E by exact HQ. exact E.
Qed.
