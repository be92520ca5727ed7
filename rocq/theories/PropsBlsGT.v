(** Properties C92-C95: the target group of the BLS12-381 pairing, the pairing engine
    and the verification equation with it. *)
From Coq Require Import ZArith List Bool Lia Permutation.
From Verif Require Import Base ModelECDSA ModelApi ModelBlsF SpecBls ModelBls SpecBlsG Fp BlsFp2 Weier Group SpecBlsSig SpecBlsPair ProofBlsI ProofBlsJ ProofBlsK ProofBlsL PropsBlsApi PropsBlsSig SpecBlsMap ProofBlsS SpecBlsGT BlsTower SpecBlsAte ModelBlsGT ProofBlsU ProofBlsV ProofBlsW ProofBlsX ProofBlsY ProofBlsZ ProofBlsAA.
From Verif Require Tower Group.
Import ListNotations.
Local Open Scope Z_scope.
Local Opaque phi zp bls_p bls_r Group.zmul E_final cf.

(** Twelve field elements of the code hold the coefficients of a number of the field of
    p^12 elements *)
Definition fe2_of (x : fe2) (a : Fp2) : Prop := fe_of (fst x) (fval (fst a)) /\ fe_of (snd x) (fval (snd a)).
Definition gt_of (x : fe12) (a : F12) : Prop :=
  (fe2_of (e0 (d0 x)) (Tower.a0 Fp2 (Tower.b0 Fp2 a)) /\ fe2_of (e1 (d0 x)) (Tower.a1 Fp2 (Tower.b0 Fp2 a)) /\ fe2_of (e2 (d0 x)) (Tower.a2 Fp2 (Tower.b0 Fp2 a))) /\
  (fe2_of (e0 (d1 x)) (Tower.a0 Fp2 (Tower.b1 Fp2 a)) /\ fe2_of (e1 (d1 x)) (Tower.a1 Fp2 (Tower.b1 Fp2 a)) /\ fe2_of (e2 (d1 x)) (Tower.a2 Fp2 (Tower.b1 Fp2 a))).
Lemma gt_rep x a : gt_of x a -> rep12 x a. Proof. exact (fun H => H). Qed.
Lemma rep_gt x a : rep12 x a -> gt_of x a. Proof. exact (fun H => H). Qed.

(** ** C92: GT *)
(** One number has one form; Add, Sub, Mul are those of the field, also for numbers
    outside the subgroup.  IsValid tells whether the order divides r. *)
Theorem C92_field : forall F, exact_but_square F -> forall x y a b, gt_of x a -> gt_of y b ->
  (a = b <-> x = y) /\ (fp12_equal x y = true <-> a = b) /\
  gt_of (gt_Add F x y) (Add12 a b) /\ gt_of (gt_Sub F x y) (Sub12 a b) /\ gt_of (gt_Mul F x y) (Mul12 a b) /\
  (gt_IsValid F x = true <-> zp bls_r a = O12).
Proof.
  intros F HF x y a b A B. split; [split; [intros ->; exact (rep12_inj _ _ _ A B)|intros ->; exact (rep12_fun _ _ _ A B)]|].
  split; [rewrite (equal12_rep _ _ _ _ A B); destruct (F12_dec a b); split; congruence|].
  refine (conj (add12_rep F HF _ _ _ _ A B) (conj (sub12_rep F HF _ _ _ _ A B) (conj (mul12_rep F HF _ _ _ _ A B) _))).
  exact (valid_iff F HF x a A).
Qed.
Print Assumptions C92_field.
(** On elements that IsValid accepts Square and Exp are powers, and what comes out is
    accepted again. *)
Theorem C92_powers : forall F, exact_but_square F -> forall x y a b, gt_of x a -> gt_of y b ->
  gt_IsValid F x = true -> gt_IsValid F y = true ->
  gt_of (gt_Square F x) (Mul12 a a) /\ gt_IsValid F (gt_Square F x) = true /\
  gt_IsValid F (gt_Mul F x y) = true /\
  forall s, 0 <= s -> gt_of (gt_Exp F x s) (zp s a) /\ gt_IsValid F (gt_Exp F x s) = true.
Proof.
  intros F HF x y a b A B VA VB. apply (valid_iff F HF x a A) in VA. apply (valid_iff F HF y b B) in VB.
  pose proof (valid_unit a VA) as UA. pose proof (valid_unit b VB) as UB. pose proof (valid_cyc a UA VA) as C.
  assert (M : forall c d, unit12 c -> unit12 d -> zp bls_r c = O12 -> zp bls_r d = O12 -> zp bls_r (Mul12 c d) = O12).
  { intros c d U U' E E'. rewrite (zp_padd bls_r c d U U'), E, E'. exact (Group.g_0_l _ _ _ _ _ GM O12 one_ne). }
  pose proof (cycsq_rep F HF x a C A) as S. split; [exact S|].
  split; [apply (valid_iff F HF _ _ S), M; assumption|]. split; [apply (valid_iff F HF _ _ (mul12_rep F HF _ _ _ _ A B)), M; assumption|].
  intros s Hs. pose proof (cycexp_rep F HF x a s C Hs A) as E. split; [exact E|]. apply (valid_iff F HF _ _ E).
  rewrite (zp_zp _ _ a UA), Z.mul_comm, <- (zp_zp _ _ a UA), VA. exact (Group.zmul_zero _ _ _ _ _ GM s).
Qed.
Print Assumptions C92_powers.
(** On others Square is no square: it takes 2 to 8. *)
Theorem C92_square_refuted : forall F, exact_but_square F -> exists x a, gt_of x a /\ ~ gt_of (gt_Square F x) (Mul12 a a).
Proof.
  intros F HF. exists (fp12_add F fp12_one fp12_one), (Add12 O12 O12). pose proof (add12_rep F HF _ _ _ _ one12_rep one12_rep) as R.
  split; [exact R|]. intros H. pose proof (rep12_fun _ _ _ (cyc_rep F HF _ _ R) (gt_rep _ _ H)) as E.
  apply (f_equal (fun t => fval (fst (Tower.a0 Fp2 (Tower.b0 Fp2 t))))) in E. revert E. Local Transparent bls_p. vm_compute. discriminate.
Qed.
Local Opaque bls_p.
Print Assumptions C92_square_refuted.
(** Inverse needs right squarings. *)
Theorem C92_inverse_exact_partial : forall F, exact_build F -> forall x a, gt_of x a ->
  (a <> Z12 -> exists b, gt_of (gt_Inverse F x) b /\ Mul12 a b = O12) /\ (a = Z12 -> gt_of (gt_Inverse F x) Z12).
Proof.
  intros F [HF HS] x a A. split.
  - intros N. exists (Inv12 a). split; [exact (inv12_rep F HF HS x a A N)|]. exact (Group.g_inv _ _ _ _ _ GM a N).
  - intros ->. exact (inv12_zero F HF HS x A).
Qed.
Print Assumptions C92_inverse_exact_partial.
(** ToBytes: the twelve coefficients, 48 bytes each, from the highest.  FromBytes takes
    exactly the encodings of the elements whose order divides r. *)
Definition gt_bytes (a : F12) : bytes :=
  let f6 c := flat_map (fun u : Fp2 => z2be 48 (fval (snd u)) ++ z2be 48 (fval (fst u))) [Tower.a2 Fp2 c; Tower.a1 Fp2 c; Tower.a0 Fp2 c] in
  f6 (Tower.b1 Fp2 a) ++ f6 (Tower.b0 Fp2 a).
Lemma gt_enc a : enc12 a = gt_bytes a.
Proof. unfold enc12, enc6, enc2, gt_bytes. cbn [flat_map]. rewrite !app_nil_r. reflexivity. Qed.
Theorem C92_bytes : forall F, exact_but_square F ->
  (forall x a, gt_of x a -> gt_ToBytes F x = gt_bytes a /\ length (gt_bytes a) = 576%nat) /\
  (forall b, bytes_ok b ->
   match gt_FromBytes F b with
   | Some x => exists a, gt_of x a /\ zp bls_r a = O12 /\ gt_bytes a = b /\ gt_ToBytes F x = b
   | None => forall a, zp bls_r a = O12 -> gt_bytes a <> b
   end) /\
  (forall x a, gt_of x a -> zp bls_r a = O12 -> gt_FromBytes F (gt_ToBytes F x) = Some x).
Proof.
  intros F HF.
  assert (T : forall x a, gt_of x a -> gt_ToBytes F x = gt_bytes a) by (intros x a A; rewrite <- gt_enc; exact (toBytes12_rep F HF x a A)).
  assert (FB : forall b, bytes_ok b ->
   match gt_FromBytes F b with
   | Some x => exists a, gt_of x a /\ zp bls_r a = O12 /\ gt_bytes a = b /\ gt_ToBytes F x = b
   | None => forall a, zp bls_r a = O12 -> gt_bytes a <> b
   end).
  { intros b O. pose proof (frombytes_ok F HF b O) as H. destruct (gt_FromBytes F b) as [x|].
    - destruct H as (a & R & V & E). exists a. rewrite gt_enc in E. refine (conj R (conj V (conj E _))). rewrite (T x a R). exact E.
    - intros a V. rewrite <- gt_enc. exact (H a V). }
  split; [|split; [exact FB|]].
  - intros x a A. split; [exact (T x a A)|]. rewrite <- gt_enc. apply enc12_len.
  - intros x a A V. assert (O : bytes_ok (gt_ToBytes F x)).
    { rewrite (T x a A), <- gt_enc. apply enc12_ok. }
    specialize (FB _ O). destruct (gt_FromBytes F (gt_ToBytes F x)) as [x'|].
    + destruct FB as (a' & A' & V' & E & _). f_equal. rewrite (T x a A), <- !gt_enc in E. rewrite (enc12_inj _ _ E) in A'. exact (rep12_inj _ _ _ A' A).
    + exfalso. apply (FB a V). symmetry. exact (T x a A).
Qed.
Print Assumptions C92_bytes.

(** ** C93: the engine computes the optimal ate pairing *)
(** Pairs of affine points, the second in G2 *)
Definition pairs_of (l : list (ModelBls.point fe * ModelBls.point fe2)) (pts : list (g1pt * g2pt)) : Prop :=
  Forall2 (fun PQ AB => affine1 (fst PQ) (fst AB) /\ affine2 (snd PQ) (snd AB) /\ in_G2 (snd AB)) l pts.
Definition ate_product (pts : list (g1pt * g2pt)) : F12 := fold_right (fun AB acc => Mul12 (ate (fst AB) (snd AB)) acc) O12 pts.
Theorem C93_result_exact_partial : forall F, exact_build F -> forall l pts, pairs_of l pts ->
  gt_of (eng_Result F l) (ate_product pts) /\ (eng_Check F l = true <-> ate_product pts = O12).
Proof. intros F [HF HS] l pts H. split; [exact (calc_rep F HF HS l pts H)|exact (check_rep F HF HS l pts H)]. Qed.
Print Assumptions C93_result_exact_partial.
(** This is what C86-C89 ask of the engine. *)
Theorem C93_decides_exact_partial : forall F, exact_build F -> decides_pairing (eng_Check F) O12 Mul12 ate.
Proof.
  intros F HE l pts _ H. set (qs := map (fun aB : Z * g2pt => (g1_mul (fst aB) g1_gen, snd aB)) pts).
  assert (P : pairs_of l qs) by (subst qs; induction H; constructor; assumption).
  assert (E : ate_product qs = fold_right (fun aB acc => Mul12 (ate (g1_mul (fst aB) g1_gen) (snd aB)) acc) O12 pts).
  { subst qs. clear. unfold ate_product. induction pts as [|aB pts IH]; cbn [map fold_right fst snd]; [reflexivity|]. rewrite IH. reflexivity. }
  rewrite <- E. exact (proj2 (C93_result_exact_partial F HE l qs P)).
Qed.
Print Assumptions C93_decides_exact_partial.
(** Values of the pairing are elements of order r, so Result is one that IsValid and
    FromBytes accept. *)
Theorem C93_valid_exact_partial : forall F, exact_build F -> forall l pts, pairs_of l pts -> Forall (fun AB => in_G1 (fst AB)) pts ->
  zp bls_r (ate_product pts) = O12 /\ gt_IsValid F (eng_Result F l) = true /\
  gt_FromBytes F (gt_ToBytes F (eng_Result F l)) = Some (eng_Result F l).
Proof.
  intros F HE l pts H G. pose proof (proj1 (C93_result_exact_partial F HE l pts H)) as R. destruct HE as [HF HS].
  assert (V : zp bls_r (ate_product pts) = O12 /\ unit12 (ate_product pts)).
  { clear - G. induction G as [|AB pts GA _ IH]; unfold ate_product in *; cbn [fold_right]; [split; [exact (Group.zmul_zero _ _ _ _ _ GM bls_r)|exact one_ne]|].
    destruct IH as [E U]. destruct (ate_order (fst AB) (snd AB) GA) as (E' & _ & U'). split; [|exact (unit_mul _ _ U' U)].
    rewrite (zp_padd bls_r _ _ U' U), E, E'. exact (Group.g_0_l _ _ _ _ _ GM O12 one_ne). }
  destruct V as [V _]. split; [exact V|]. split; [exact (proj2 (valid_iff F HF _ _ R) V)|].
  exact (proj2 (proj2 (C92_bytes F HF)) _ _ R V).
Qed.
Print Assumptions C93_valid_exact_partial.

(** ** C94: products, order of the pairs, inverse points *)
(** Any field elements for coordinates: Result of two lists is the product. *)
Definition field_pairs (l : list (ModelBls.point fe * ModelBls.point fe2)) : Prop :=
  Forall (fun PQ => (exists x y : fp bls_p, fe_of (px (fst PQ)) (fval x) /\ fe_of (py (fst PQ)) (fval y)) /\
    (exists x y z, fe2_of (px (snd PQ)) x /\ fe2_of (py (snd PQ)) y /\ fe2_of (pz (snd PQ)) z)) l.
Theorem C94_append_exact_partial : forall F, exact_build F -> forall l1 l2, field_pairs l1 -> field_pairs l2 ->
  eng_Result F (l1 ++ l2) = gt_Mul F (eng_Result F l1) (eng_Result F l2).
Proof.
  intros F [HF HS] l1 l2 H1 H2. destruct (calc_app F HF HS l1 l2 H1 H2) as (a & b & A & B & AB).
  exact (rep12_inj _ _ _ AB (mul12_rep F HF _ _ _ _ A B)).
Qed.
Print Assumptions C94_append_exact_partial.
Theorem C94_order_exact_partial : forall F, exact_build F -> forall l pts l' pts', pairs_of l pts -> pairs_of l' pts' -> Permutation pts pts' ->
  eng_Result F l = eng_Result F l' /\ eng_Check F l = eng_Check F l'.
Proof.
  intros F [HF HS] l pts l' pts' H H' P. pose proof (calc_rep F HF HS l pts H) as R. pose proof (calc_rep F HF HS l' pts' H') as R'.
  rewrite (prod_perm _ _ P) in R. unfold eng_Check, eng_Result. rewrite (rep12_inj _ _ _ R R'). split; reflexivity.
Qed.
Print Assumptions C94_order_exact_partial.
(** The pair with -P cancels the one with P; so a check of two pairs, the first point of
    one negated, compares two values of the pairing. *)
Theorem C94_negated_exact_partial : forall F, exact_build F -> forall P Q P' Q' A B A' B',
  pairs_of [(P, Q); (P', Q')] [(A, B); (g1_neg A', B')] -> in_G1 A' ->
  Mul12 (ate A' B') (ate (g1_neg A') B') = O12 /\
  (eng_Check F [(P, Q); (P', Q')] = true <-> ate A B = ate A' B').
Proof.
  intros F HE P Q P' Q' A B A' B' H G. pose proof (ate_neg A' B' G) as N. split; [exact N|].
  rewrite (proj2 (C93_result_exact_partial F HE _ _ H)). unfold ate_product. cbn [fold_right fst snd].
  rewrite (Group.gadd_0_r _ _ _ _ _ GM) by (destruct (ate_order (g1_neg A') B') as (_ & _ & U); [exact (g_neg _ _ _ _ _ G1_closed A' G)|exact U]).
  exact (mul_eq _ _ _ N).
Qed.
Print Assumptions C94_negated_exact_partial.

(** ** C95: Verify with this engine *)
(** Nothing is assumed of the pairing.  A signature is accepted if and only if key and
    signature are the encodings of points A of G1 and S of G2 and the generator paired
    with S gives A paired with the hashed point. *)
Theorem C95_verify_exact_partial : forall F h privToPub B, exact_build F -> runs_bls F h (eng_Check F) privToPub B ->
  forall typ pub ID m sig H PH, bytes_ok pub -> bytes_ok sig ->
  hashes_to h typ pub m PH -> affine2 PH H -> in_G2 H ->
  Verify B pub ID m sig typ = Ret SUCCESS <->
  exists A S, in_G1 A /\ in_G2 S /\ pub = key_bytes A /\ sig = sig_bytes S /\ ate g1_gen S = ate A H.
Proof.
  intros F h privToPub B [HF HS] R typ pub ID m sig H PH OP OS HT AH HH.
  rewrite (ver_hash _ _ _ _ _ R _ _ _ _ _ _ HT). unfold verify_as.
  destruct (Nat.eqb_spec (length pub) 48) as [LP|LP]; cbn [negb orb].
  2: { split; [discriminate|]. intros (A' & S' & _ & _ & -> & _). exfalso. apply LP. exact (proj2 (key_bytes_ok F HF HS A')). }
  destruct (g_FromCompressed (C1 F) pub) as [PA|] eqn:D.
  2: { split.
    - destruct (Nat.eqb (length sig) 96); cbn [negb]; [|discriminate]. destruct (g_FromCompressed (C2 F) sig); discriminate.
    - intros (A' & S' & GA' & _ & -> & _). destruct (key_dec_complete F HF HS A' GA') as (PA & D' & _). congruence. }
  destruct (key_dec_sound F HF HS pub PA OP LP D) as (A & JA & GA & EP & ZA). subst pub.
  destruct (Nat.eqb_spec (length sig) 96) as [LS|LS]; cbn [negb].
  - destruct (g_FromCompressed (C2 F) sig) as [P|] eqn:DS.
    + destruct (sig_dec_sound F HF sig P OS LS DS) as (S & JS & IS & ES & ZS).
      destruct (validate_ate F HF HS P S PA A PH H JS IS ZS JA GA ZA AH HH) as (b & -> & Hb). split.
      * intros V. destruct b; [|discriminate]. exists A, S. refine (conj GA (conj IS (conj eq_refl (conj (eq_sym ES) (proj1 Hb eq_refl))))).
      * intros (A' & S' & GA' & IS' & EA & ES' & E).
        assert (A = A') as <- by (apply key_inj; assumption).
        assert (S = S') as <- by (apply sig_inj; [assumption..|congruence]). rewrite (proj2 Hb E). reflexivity.
    + split; [discriminate|]. intros (A' & S' & _ & IS' & _ & -> & _). destruct (sig_dec_complete F HF _ IS') as (P & D' & _). congruence.
  - split; [discriminate|]. intros (A' & S' & _ & _ & _ & -> & _). exfalso. apply LS, sig_bytes_ok.
Qed.
Print Assumptions C95_verify_exact_partial.

(** ** The hypotheses can be met *)
Lemma gen1_affine : affine1 g1One g1_gen.
Proof. exact (aff1 _ _ gen_rep eq_refl). Qed.
Example C93_met : pairs_of [(g1One, g2One); (g1One, g2One)] [(g1_gen, g2_gen); (g1_gen, g2_gen)] /\
  Forall (fun AB : g1pt * g2pt => in_G1 (fst AB)) [(g1_gen, g2_gen); (g1_gen, g2_gen)] /\
  field_pairs [(g1One, g2One)].
Proof.
  split; [|split].
  - repeat (constructor; [exact (conj gen1_affine (conj gen2_affine gen2_in))|]). constructor.
  - repeat (constructor; [exact gen_in|]). constructor.
  - constructor; [|constructor]. exact (good_ok (g1One, g2One) (g1_gen, g2_gen) (conj gen1_affine (conj gen2_affine gen2_in))).
Qed.
(** C92: the pairing of the generators is an element IsValid accepts, and so are its powers *)
Example C92_met : exists x a, gt_of x a /\ gt_IsValid repaired x = true /\ a = ate g1_gen g2_gen /\
  gt_IsValid repaired (gt_Exp repaired x 5) = true.
Proof.
  destruct C85_builds as [_ HE]. assert (P : pairs_of [(g1One, g2One)] [(g1_gen, g2_gen)]) by (constructor; [exact (conj gen1_affine (conj gen2_affine gen2_in))|constructor]).
  assert (G : Forall (fun AB : g1pt * g2pt => in_G1 (fst AB)) [(g1_gen, g2_gen)]) by (constructor; [exact gen_in|constructor]).
  destruct (C93_valid_exact_partial repaired HE _ _ P G) as (_ & V & _). pose proof (proj1 (C93_result_exact_partial repaired HE _ _ P)) as R.
  assert (E : ate_product [(g1_gen, g2_gen)] = ate g1_gen g2_gen).
  { unfold ate_product. cbn [fold_right fst snd]. apply (Group.gadd_0_r _ _ _ _ _ GM). exact (proj2 (proj2 (ate_order g1_gen g2_gen gen_in))). }
  rewrite E in R. eexists _, _. split; [exact R|]. split; [exact V|]. split; [reflexivity|].
  exact (proj2 (proj2 (proj2 (proj2 (C92_powers repaired (proj1 HE) _ _ _ _ R R V V))) 5 ltac:(lia))).
Qed.
Definition engine_sig (B : backends) : backends :=
  {| bk_drbg := bk_drbg B; bk_entropy := bk_entropy B; bk_rand := bk_rand B; bk_fuel := 5; bk_r1 := bk_r1 B;
     bk_ed_normal := bk_ed_normal B; bk_ed := bk_ed B; bk_x := bk_x B;
     bk_sha256 := bk_sha256 B; bk_ed_baseadd := bk_ed_baseadd B; bk_ed_add := bk_ed_add B;
     bk_bls := bls_pkg repaired demo_h (eng_Check repaired) demo_pub; bk_bls_baseadd := bk_bls_baseadd B;
     bk_bls_aggregate := fun l => Ret (bls_Aggregate repaired l);
     bk_pasta := bk_pasta B; bk_pasta_baseadd := bk_pasta_baseadd B; bk_pasta_add := bk_pasta_add B;
     bk_pasta_mul := bk_pasta_mul B; bk_pasta_decompress := bk_pasta_decompress B |}.
(** C95: with the key 1 the hashed point itself is a signature *)
Example C95_met B : runs_bls repaired demo_h (eng_Check repaired) demo_pub (engine_sig B) /\
  forall ID m, Verify (engine_sig B) (key_bytes g1_gen) ID m (sig_bytes g2_gen) ECC_CURVE_BLS_AUG = Ret SUCCESS.
Proof.
  assert (R : runs_bls repaired demo_h (eng_Check repaired) demo_pub (engine_sig B)) by (split; [reflexivity|intros l; reflexivity]).
  split; [exact R|]. intros ID m. destruct C85_builds as [_ HE].
  apply (C95_verify_exact_partial repaired demo_h demo_pub _ HE R ECC_CURVE_BLS_AUG (key_bytes g1_gen) ID m (sig_bytes g2_gen) g2_gen g2One).
  - exact (proj1 (key_bytes_ok repaired repaired_exact repaired_square _)).
  - apply sig_bytes_ok.
  - right. split; reflexivity.
  - exact gen2_affine.
  - exact gen2_in.
  - exists g1_gen, g2_gen. refine (conj gen_in (conj gen2_in (conj eq_refl (conj eq_refl eq_refl)))).
Qed.
