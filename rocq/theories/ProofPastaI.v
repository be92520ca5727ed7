(** Package pasta, continued: affine points, encodings, Poseidon. *)
Require Import ZArith List Bool Lia Znumtheory Ring Field.
Require Import Verif.Base Verif.Fp Verif.Weier Verif.Jac Verif.Group Verif.EC Verif.Curves Verif.SpecECDSA Verif.SpecPasta.
Require Import Verif.ModelPastaCode Verif.ProofPastaF Verif.ModelPasta Verif.ProofPastaG Verif.ProofPastaH.
Import ListNotations.
Open Scope Z_scope.
Add Field KFp : Kfp.
Local Notation F := (fp_of pp).

(** ** Affine points; the pair (0, 0) stands for infinity *)
Definition aok (a : affine) : Prop := okp (aX a) /\ okp (aY a).
Definition apt (a : affine) : pt pallas :=
  if fp_dec (fe (aX a)) (F 0) then if fp_dec (fe (aY a)) (F 0) then pinf pallas else Aff _ (fe (aX a)) (fe (aY a))
  else Aff _ (fe (aX a)) (fe (aY a)).
Lemma apt_aff a : fe (aX a) <> F 0 \/ fe (aY a) <> F 0 -> apt a = Aff _ (fe (aX a)) (fe (aY a)).
Proof. unfold apt. destruct (fp_dec (fe (aX a)) (F 0)); [destruct (fp_dec (fe (aY a)) (F 0))|]; tauto. Qed.

Lemma FieldOne_okp : okp FieldOne. Proof. exact (proj1 rep_one). Qed.
Lemma fe_FieldOne : fe FieldOne = F 1. Proof. exact (proj2 rep_one). Qed.
Lemma one_ne_0 : F 1 <> F 0. Proof. exact (F_1_neq_0 Kfp). Qed.
Lemma AffineToGroup_ok a : aok a -> gok (AffineToGroup a) /\ gpt (AffineToGroup a) = apt a.
Proof.
  intros [Hx Hy]. unfold AffineToGroup, apt.
  destruct (FpEquals (aX a) zero4) eqn:E1.
  - apply FpEquals_iff in E1; [|exact Hx | exact zero4_okp]. rewrite fe_zero4 in E1. rewrite E1.
    destruct (fp_dec (F 0) (F 0)) as [_|N]; [|congruence].
    destruct (FpEquals (aY a) zero4) eqn:E2; cbn [andb].
    + apply FpEquals_iff in E2; [|exact Hy | exact zero4_okp]. rewrite fe_zero4 in E2. rewrite E2.
      destruct (fp_dec (F 0) (F 0)) as [_|N]; [|congruence].
      split; [split; [exact zero4_okp | split; [exact FieldOne_okp | exact zero4_okp]]|].
      apply gpt_zero. exact fe_zero4.
    + destruct (fp_dec (fe (aY a)) (F 0)) as [E|N].
      { rewrite (proj2 (FpEquals_iff (aY a) zero4 Hy zero4_okp)) in E2 by (rewrite fe_zero4; exact E). discriminate. }
      split; [split; [exact Hx | split; [exact Hy | exact FieldOne_okp]]|].
      unfold gpt. cbn [gX gY gZ]. rewrite fe_FieldOne, E1. apply (jac_1 _ _ _ _ _ _ _ _ _ Kfp).
  - cbn [andb]. destruct (fp_dec (fe (aX a)) (F 0)) as [E|N].
    { rewrite (proj2 (FpEquals_iff (aX a) zero4 Hx zero4_okp)) in E1 by (rewrite fe_zero4; exact E). discriminate. }
    split; [split; [exact Hx | split; [exact Hy | exact FieldOne_okp]]|].
    unfold gpt. cbn [gX gY gZ]. rewrite fe_FieldOne. apply (jac_1 _ _ _ _ _ _ _ _ _ Kfp).
Qed.

Lemma AffineFromGroup_ok g : gok g -> aok (AffineFromGroup g) /\
  fval (fe (aX (AffineFromGroup g))) = px pallas (gpt g) /\ fval (fe (aY (AffineFromGroup g))) = py pallas (gpt g).
Proof.
  intros (Hx & Hy & Hz). unfold AffineFromGroup. destruct (FpEquals (gZ g) zero4) eqn:E.
  - apply FpEquals_iff in E; [|exact Hz | exact zero4_okp]. rewrite fe_zero4 in E. rewrite (gpt_zero g E).
    cbn [aX aY]. rewrite fe_zero4. split; [split; exact zero4_okp | split; reflexivity].
  - assert (N : fe (gZ g) <> F 0).
    { intros K. rewrite (proj2 (FpEquals_iff (gZ g) zero4 Hz zero4_okp)) in E by (rewrite fe_zero4; exact K). discriminate. }
    cbv zeta. cbn [aX aY]. unfold gpt. rewrite jac_ne by exact N. cbn [px py].
    apply rep_self in Hx, Hy, Hz. pose proof (FpInv_ok _ _ Hz N) as Hi.
    pose proof (rep_mul _ _ _ _ Hx (rep_mul _ _ _ _ Hi Hi)) as R1.
    pose proof (rep_mul _ _ _ _ Hy (rep_mul _ _ _ _ (rep_mul _ _ _ _ Hi Hi) Hi)) as R2.
    split; [split; [apply R1 | apply R2]|]. rewrite (proj2 R1), (proj2 R2).
    split; f_equal; field; exact N.
Qed.

Lemma on_not_00 : ~ w_on pallas (Aff _ (F 0) (F 0)).
Proof. unfold w_on. cbn [on_curve]. intros E. apply (f_equal fval) in E. vm_compute in E. discriminate E. Qed.

(** the coordinates as written: infinity is (0, 0) *)
Lemma apt_coords a : px pallas (apt a) = fval (fe (aX a)) /\ py pallas (apt a) = fval (fe (aY a)).
Proof.
  unfold apt. destruct (fp_dec (fe (aX a)) (F 0)) as [E1|N1]; [destruct (fp_dec (fe (aY a)) (F 0)) as [E2|N2]|];
    cbn [px py]; auto. rewrite E1, E2. split; reflexivity.
Qed.
Lemma coords_apt a P : w_on pallas P -> fval (fe (aX a)) = px pallas P -> fval (fe (aY a)) = py pallas P -> apt a = P.
Proof.
  intros Ho Ex Ey. destruct P as [|x y].
  - cbn [px py] in *. unfold apt.
    assert (E1 : fe (aX a) = F 0) by (apply fp_eq; exact Ex). assert (E2 : fe (aY a) = F 0) by (apply fp_eq; exact Ey).
    rewrite E1, E2. destruct (fp_dec (F 0) (F 0)) as [_|N]; [reflexivity|congruence].
  - cbn [px py] in *. apply fp_eq in Ex, Ey. subst x y. apply apt_aff.
    destruct (fp_dec (fe (aX a)) (F 0)) as [E1|N1]; [|left; exact N1].
    destruct (fp_dec (fe (aY a)) (F 0)) as [E2|N2]; [|right; exact N2].
    exfalso. rewrite E1, E2 in Ho. exact (on_not_00 Ho).
Qed.
Lemma AffineFromGroup_pt g : gok g -> w_on pallas (gpt g) -> aok (AffineFromGroup g) /\ apt (AffineFromGroup g) = gpt g.
Proof. intros Hg Ho. destruct (AffineFromGroup_ok g Hg) as (A & X & Y). split; [exact A|]. apply coords_apt; assumption. Qed.

Lemma AffineOne_ok : aok AffineOne. Proof. split; limbs_lit. Qed.
Lemma fe_G : fe AffineOneX = F (w_gx pallas) /\ fe AffineOneY = F (w_gy pallas).
Proof. Transparent fe. split; apply fp_of_eq; reflexivity. Opaque fe. Qed.
Lemma G_on : w_on pallas (w_G pallas). Proof. exact (wv_Gon _ pallas_valid). Qed.
Lemma apt_G : apt AffineOne = w_G pallas.
Proof. destruct fe_G as [E1 E2]. apply coords_apt; [exact G_on | |]; cbn [aX aY AffineOne]; [rewrite E1 | rewrite E2]; reflexivity. Qed.

Theorem AffineScalarMul_ok k a : okq k -> aok a -> w_on pallas (apt a) ->
  aok (AffineScalarMul k a) /\ apt (AffineScalarMul k a) = w_mul pallas (fval (sc k)) (apt a).
Proof.
  intros Hk Ha Ho. destruct (AffineToGroup_ok a Ha) as [G1 G2]. rewrite <- G2 in Ho.
  destruct (GroupScalarMul_ok k _ Hk G1 Ho) as [M1 M2].
  destruct (AffineFromGroup_pt _ M1) as [A1 A2]; [rewrite M2; apply mul_on; exact Ho|].
  split; [exact A1|]. unfold AffineScalarMul. rewrite A2, M2, G2. reflexivity.
Qed.
Lemma AffineToGroup_inj a b : aok a -> aok b -> apt a = apt b -> a = b.
Proof.
  intros [A1 A2] [B1 B2] E. destruct (apt_coords a) as [Xa Ya], (apt_coords b) as [Xb Yb]. rewrite E, Xb in Xa. rewrite E, Yb in Ya.
  apply fp_eq in Xa, Ya. apply fe_inj in Xa, Ya; try assumption. destruct a, b; cbn in *; congruence.
Qed.
Lemma gen_add_on c P Q : w_field_ok c -> w_on c P -> w_on c Q -> w_on c (w_add c P Q).
Proof. intros Hf. apply (g_add _ _ _ _ _ (w_group c Hf)). Qed.
Lemma gen_neg_on c P : w_field_ok c -> w_on c P -> w_on c (w_neg c P).
Proof. intros Hf. apply (g_neg _ _ _ _ _ (w_group c Hf)). Qed.
Theorem AffineAdd_ok a b : aok a -> aok b -> w_on pallas (apt a) -> w_on pallas (apt b) ->
  aok (AffineAdd a b) /\ apt (AffineAdd a b) = w_add pallas (apt a) (apt b).
Proof.
  intros Ha Hb Oa Ob. destruct (AffineToGroup_ok a Ha) as [G1 G2], (AffineToGroup_ok b Hb) as [H1 H2].
  assert (Og := Oa). assert (Oh := Ob). rewrite <- G2 in Og. rewrite <- H2 in Oh.
  destruct (GroupAdd_ok _ _ G1 H1 Og Oh) as [M1 M2].
  { intros E. right. rewrite G2, H2 in E. rewrite (AffineToGroup_inj a b Ha Hb E). reflexivity. }
  destruct (AffineFromGroup_pt _ M1) as [A1 A2]; [rewrite M2; apply gen_add_on; [exact pf | assumption..]|].
  split; [exact A1|]. unfold AffineAdd. rewrite A2, M2, G2, H2. reflexivity.
Qed.
(** AffineNegate returns its argument *)
Theorem AffineNegate_same a : aok a -> w_on pallas (apt a) -> AffineNegate a = a.
Proof.
  intros Ha Ho. unfold AffineNegate, GroupNegate. destruct (AffineToGroup_ok a Ha) as [G1 G2].
  destruct (AffineFromGroup_pt _ G1) as [A1 A2]; [rewrite G2; exact Ho|].
  apply AffineToGroup_inj; [exact A1 | exact Ha|]. rewrite A2. exact G2.
Qed.

(** ** Bytes *)
Lemma le2z_chunk l : le2z (firstn 8 l) + 2 ^ 64 * le2z (skipn 8 l) = le2z (firstn 8 l ++ skipn 8 l) \/ (length l < 8)%nat.
Proof.
  destruct (Nat.lt_ge_cases (length l) 8) as [H|H]; [right; exact H|left].
  rewrite le2z_app, firstn_length_le by exact H. reflexivity.
Qed.
Lemma skipn_skipn' {A} m n (l : list A) : skipn m (skipn n l) = skipn (n + m) l.
Proof. revert l. induction n as [|n IH]; intros l; [reflexivity|]. destruct l; [rewrite !skipn_nil; reflexivity|]. cbn [skipn Nat.add]. apply IH. Qed.
Lemma BytesArray_ok l : bytes_ok l -> length l = 32%nat -> limbs4 (BytesArrayToU64Array l) /\ lval (BytesArrayToU64Array l) = le2z l.
Proof.
  intros Hb Hl. unfold BytesArrayToU64Array, Uint64. cbn [seq map].
  assert (W : forall i, (i <= 24)%nat -> word (le2z (firstn 8 (skipn i l)))).
  { intros i Hi. pose proof (le2z_bound (firstn 8 (skipn i l)) (bytes_ok_firstn _ _ (bytes_ok_skipn _ _ Hb))) as B.
    rewrite firstn_length_le in B by (rewrite skipn_length; lia). exact B. }
  split; [split; [reflexivity|]; repeat constructor; apply W; lia|].
  assert (S1 : forall i, (i <= 24)%nat -> le2z (skipn i l) = le2z (firstn 8 (skipn i l)) + 2 ^ 64 * le2z (skipn (i + 8) l)).
  { intros i Hi. rewrite <- (firstn_skipn 8 (skipn i l)) at 1. rewrite le2z_app, firstn_length_le by (rewrite skipn_length; lia).
    rewrite skipn_skipn'. reflexivity. }
  cbn [lval]. change (skipn (8 * 0) l) with l. change (8 * 1)%nat with 8%nat. change (8 * 2)%nat with 16%nat. change (8 * 3)%nat with 24%nat.
  pose proof (S1 0%nat ltac:(lia)) as K0. pose proof (S1 8%nat ltac:(lia)) as K1.
  pose proof (S1 16%nat ltac:(lia)) as K2. pose proof (S1 24%nat ltac:(lia)) as K3.
  cbn [Nat.add] in *. change (skipn 0 l) with l in *. rewrite K0, K1, K2, K3.
  rewrite (skipn_all2 l (n := 32)) by lia. unfold ProofW64.B64. cbn [le2z]. ring.
Qed.
Lemma U64Array_ok a : limbs4 a -> U64ArrayToBytesArray a = z2le 32 (lval a).
Proof.
  intros Ha. pose proof (limbs4_bound a Ha) as B. destruct Ha as [La Wa]. destruct (list4 _ La) as (a0 & a1 & a2 & a3 & ->).
  repeat match goal with H : Forall _ (_ :: _) |- _ => inversion H; subst; clear H end.
  unfold U64ArrayToBytesArray, PutUint64, limb. cbn [seq flat_map nth].
  assert (S1 : forall d t n, word d -> 0 <= t -> z2le (8 + n) (d + ProofW64.B64 * t) = z2le 8 d ++ z2le n t).
  { intros d t n Hd Ht. unfold word in Hd. rewrite z2le_split by (unfold ProofW64.B64 in *; lia).
    change (256 ^ Z.of_nat 8) with ProofW64.B64.
    rewrite (Z.mul_comm ProofW64.B64), Z.div_add, (Z.div_small d) by (unfold ProofW64.B64 in *; lia).
    f_equal.
    assert (E : forall m x y, x mod 256 ^ Z.of_nat m = y mod 256 ^ Z.of_nat m -> z2le m x = z2le m y).
    { induction m as [|m IH]; intros x y E; [reflexivity|]. cbn [z2le].
      rewrite Nat2Z.inj_succ, Z.pow_succ_r in E by lia.
      assert (P : 0 < 256 ^ Z.of_nat m) by (apply Z.pow_pos_nonneg; lia).
      rewrite !Z.rem_mul_r in E by lia.
      pose proof (Z.mod_pos_bound x 256 ltac:(lia)). pose proof (Z.mod_pos_bound y 256 ltac:(lia)).
      f_equal; [lia | apply IH; lia]. }
    apply E. change (256 ^ Z.of_nat 8) with ProofW64.B64. apply Z_mod_plus_full. }
  cbn [lval]. unfold word, ProofW64.B64 in *.
  change 32%nat with (8 + (8 + (8 + (8 + 0))))%nat. fold ProofW64.B64 in S1.
  rewrite !S1 by (unfold word, ProofW64.B64; lia). cbn [z2le]. rewrite ?app_nil_r. reflexivity.
Qed.
Lemma be_to_fp l : bytes_ok l -> length l = 32%nat ->
  okp (BigEndianBytesToFpMontgomeryArray l) /\ fe (BigEndianBytesToFpMontgomeryArray l) = F (be2z l).
Proof.
  intros Hb Hl. unfold BigEndianBytesToFpMontgomeryArray, reverseBytes.
  destruct (BytesArray_ok (rev l) (bytes_ok_rev _ Hb)) as [A E]; [rewrite rev_length; exact Hl|].
  destruct (FpTo_ok _ A) as [K1 K2]. split; [exact K1|]. rewrite K2, E. reflexivity.
Qed.
Lemma be_to_fq l : bytes_ok l -> length l = 32%nat ->
  okq (BigEndianBytesToFqMontgomeryArray l) /\ sc (BigEndianBytesToFqMontgomeryArray l) = fp_of qq (be2z l).
Proof.
  intros Hb Hl. unfold BigEndianBytesToFqMontgomeryArray, reverseBytes.
  destruct (BytesArray_ok (rev l) (bytes_ok_rev _ Hb)) as [A E]; [rewrite rev_length; exact Hl|].
  destruct (FqTo_ok _ A) as [K1 K2]. split; [exact K1|]. rewrite K2, E. reflexivity.
Qed.
Lemma fq_to_be a : okq a -> FqMontgomeryArrayToBigEndianBytes a = z2be 32 (fval (sc a)).
Proof.
  intros Ha. unfold FqMontgomeryArrayToBigEndianBytes, reverseBytes. destruct (FqFrom_ok a (proj1 Ha)) as [K E].
  rewrite U64Array_ok by apply K. rewrite E. reflexivity.
Qed.
Lemma field_to_be a : okp a -> Field_ToBigEndianBytes (FpFromMontgomery a) = z2be 32 (fval (fe a)).
Proof.
  intros Ha. unfold Field_ToBigEndianBytes, reverseBytes. destruct (FpFrom_ok a (proj1 Ha)) as [K E].
  rewrite U64Array_ok by apply K. rewrite E. reflexivity.
Qed.
Lemma Affine_bytes a : aok a -> Affine_ToBigEndianBytes a = point_bytes pallas (apt a).
Proof.
  intros [Hx Hy]. unfold Affine_ToBigEndianBytes, point_bytes. rewrite !field_to_be by assumption.
  destruct (apt_coords a) as [-> ->]. reflexivity.
Qed.
Lemma lval_odd a : limbs4 a -> (Z.land (limb 0 a) 1 =? 1) = Z.odd (lval a).
Proof.
  intros [La Wa]. destruct (list4 _ La) as (a0 & a1 & a2 & a3 & ->). unfold limb. cbn [nth lval]. unfold ProofW64.B64.
  rewrite land1_testbit, Z.bit0_odd, Z.odd_add, Z.odd_mul. change (Z.odd 18446744073709551616) with false.
  rewrite xorb_false_r. reflexivity.
Qed.
Lemma FieldIsOdd_ok a : okp a -> FieldIsOdd a = Z.odd (fval (fe a)).
Proof. intros Ha. unfold FieldIsOdd. destruct (FpFrom_ok a (proj1 Ha)) as [K E]. rewrite lval_odd by apply K. rewrite E. reflexivity. Qed.
