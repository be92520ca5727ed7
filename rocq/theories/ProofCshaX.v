(** The double chain of Verify in curve25519_sha256.go. *)
Require Import ZArith List Lia Bool.
Require Import Verif.Base Verif.Words Verif.Fp Verif.Group Verif.SpecEd Verif.SpecCsha Verif.EdCurve Verif.ModelSlp Verif.ProofSlp Verif.ProofEdG Verif.ProofEdX.
Require Import Verif.ModelCshaCode Verif.ModelCsha Verif.ProofCshaG Verif.ProofCshaB.
Import ListNotations.
Open Scope Z_scope.

(** ** Bits *)
Lemma land1 x : Z.land x 1 = Z.b2z (Z.testbit x 0).
Proof. rewrite Z.bit0_mod. exact (Z.land_ones x 1 ltac:(lia)). Qed.
Lemma sel_0 d : (Z.land d 1 =? 0) = negb (Z.testbit d 0).
Proof. rewrite land1. now destruct (Z.testbit d 0). Qed.
Lemma sel_k x : Z.land (Z.lxor x (Z.shiftr x 1)) 1 = Z.b2z (xorb (Z.testbit x 0) (Z.testbit x 1)).
Proof. rewrite land1, Z.lxor_spec, Z.shiftr_spec by lia. reflexivity. Qed.
Lemma bit_pow2 m n : 0 <= m -> Z.testbit (2 ^ m) n = (m =? n). Proof. intros H. now apply Z.pow2_bits_eqb. Qed.
Lemma land2 d : Z.land d 2 = 2 * Z.b2z (Z.testbit d 1).
Proof.
  apply Z.bits_inj'. intros n Hn. rewrite Z.land_spec. change 2 with (2 ^ 1) at 1. rewrite bit_pow2 by lia.
  destruct (Z.eqb_spec 1 n) as [<-|N].
  - rewrite andb_true_r. now destruct (Z.testbit d 1).
  - rewrite andb_false_r. destruct (Z.testbit d 1); cbn [Z.b2z].
    + change (2 * 1) with (2 ^ 1). rewrite bit_pow2 by lia. symmetry. apply Z.eqb_neq. exact N.
    + symmetry. apply Z.bits_0.
Qed.
Lemma sel_d d : (Z.lxor (Z.land d 2) (Z.shiftl (Z.land d 1) 1) =? 0) = negb (xorb (Z.testbit d 1) (Z.testbit d 0)).
Proof. rewrite land1, land2. now destruct (Z.testbit d 0), (Z.testbit d 1). Qed.
Lemma sel_s v h : (Z.shiftr (Z.land (Z.lxor v h) 2) 1 =? 0) = negb (xorb (Z.testbit v 1) (Z.testbit h 1)).
Proof. rewrite land2, Z.lxor_spec. now destruct (Z.testbit v 1), (Z.testbit h 1). Qed.
Lemma bit_hi b X n : 0 <= b < 256 -> 0 <= n -> Z.testbit (b + 256 * X) (n + 8) = Z.testbit X n.
Proof.
  intros Hb Hn. rewrite <- Z.shiftr_spec by exact Hn. rewrite Z.shiftr_div_pow2 by lia. change (2 ^ 8) with 256.
  f_equal. rewrite Z.mul_comm, Z.div_add by lia. rewrite Z.div_small by lia. reflexivity.
Qed.
Lemma bit_lo b X n : 0 <= b < 256 -> 0 <= n < 8 -> Z.testbit (b + 256 * X) n = Z.testbit b n.
Proof.
  intros Hb Hn. rewrite <- (Z.mod_pow2_bits_low (b + 256 * X) 8 n) by lia. change (2 ^ 8) with 256.
  rewrite Z.mul_comm, Z.mod_add by lia. rewrite Z.mod_small by lia. reflexivity.
Qed.
Lemma bit_small b n : 0 <= b < 256 -> 8 <= n -> Z.testbit b n = false.
Proof. intros Hb Hn. apply Z.bits_above_log2; [lia|]. destruct (Z.eq_dec b 0) as [->|]; [cbn; lia|]. apply Z.log2_lt_pow2; [lia|]. apply Z.lt_le_trans with (2 ^ 8); [lia|apply Z.pow_le_mono_r; lia]. Qed.
Lemma bit_i64 x n : 0 <= n < 63 -> Z.testbit (i64 x) n = Z.testbit x n.
Proof.
  intros Hn. unfold i64, sgn. rewrite <- (Z.mod_pow2_bits_low _ 64 n) by lia. rewrite Zminus_mod_idemp_l, Z.add_simpl_r. apply Z.mod_pow2_bits_low. lia.
Qed.
Lemma bit_byte vi b X m : 0 <= b < 256 -> Z.testbit vi 0 = Z.odd X -> 0 <= m <= 8 ->
  Z.testbit (i64 (Z.lor (Z.shiftl vi 8) b)) m = Z.testbit (b + 256 * X) m.
Proof.
  intros Hb E Hm. rewrite bit_i64 by lia. rewrite Z.lor_spec, Z.shiftl_spec by lia. destruct (Z.eq_dec m 8) as [->|N].
  - rewrite Z.sub_diag, E, (bit_small b 8) by lia. rewrite orb_false_r. pose proof (bit_hi b X 0 Hb ltac:(lia)) as Q. change (0 + 8) with 8 in Q. rewrite Q. now rewrite Z.bit0_odd.
  - rewrite bit_lo by lia. rewrite (Z.testbit_neg_r vi) by lia. reflexivity.
Qed.

(** ** The recoding *)
Definition rel (v1 v0 h1 h0 d0 : bool) : bool := let a := xorb v1 v0 in let c := xorb h1 h0 in xorb a (negb (xorb a c) && d0).

(** ** The chain *)
Section Chain.
Variables (A : ed_pt) (P S0 S1 : long10).
Hypothesis HA : ed_on A.
Hypothesis UP : urep P A.
Hypothesis U0 : urep S0 (ed_add A ed_B).
Hypothesis U1 : urep S1 (ed_add A (ed_neg ed_B)).

Definition pt (i j : Z) : ed_pt := ed_add (ed_mul i A) (ed_mul j ed_B).
Lemma mulA_on i : ed_on (ed_mul i A). Proof using HA. apply ed_mul_on. exact HA. Qed.
Lemma mulB_on' i : ed_on (ed_mul i ed_B). Proof using. apply ed_mul_on. exact ed_B_on. Qed.
Lemma pt_add i j i' j' : ed_add (pt i j) (pt i' j') = pt (i + i') (j + j').
Proof using HA.
  unfold pt. pose proof (mulA_on i) as H1. pose proof (mulA_on i') as H2. pose proof (mulB_on' j) as H3. pose proof (mulB_on' j') as H4.
  unfold ed_mul in *. rewrite (zmul_add _ _ _ _ _ ed_group _ _ _ HA), (zmul_add _ _ _ _ _ ed_group _ _ _ ed_B_on).
  set (a := zmul _ _ _ i A) in *. set (a' := zmul _ _ _ i' A) in *. set (b := zmul _ _ _ j ed_B) in *. set (b' := zmul _ _ _ j' ed_B) in *. clearbody a a' b b'.
  pose proof (ed_add_on _ _ H2 H4) as H5. pose proof (ed_add_on _ _ H3 H4) as H6.
  rewrite <- (g_assoc _ _ _ _ _ ed_group a b _ H1 H3 H5). rewrite <- (g_assoc _ _ _ _ _ ed_group a a' _ H1 H2 H6). f_equal.
  apply (gadd_swap _ _ _ _ _ ed_group); assumption.
Qed.
Lemma pt_neg i j : ed_neg (pt i j) = pt (- i) (- j).
Proof using HA.
  unfold pt. rewrite (gneg_add _ _ _ _ _ ed_group _ _ (mulA_on i) (mulB_on' j)). unfold ed_mul.
  now rewrite (zmul_neg _ _ _ _ _ ed_group _ _ HA), (zmul_neg _ _ _ _ _ ed_group _ _ ed_B_on).
Qed.
Lemma pt_00 : pt 0 0 = ed_zero.
Proof using. unfold pt, ed_mul. rewrite !zmul_0. apply (g_0_l _ _ _ _ _ ed_group), (g_zero _ _ _ _ _ ed_group). Qed.
Lemma pt_10 : pt 1 0 = A.
Proof using HA. unfold pt, ed_mul. rewrite zmul_0, (zmul_1 _ _ _ _ _ ed_group _ HA). apply (gadd_0_r _ _ _ _ _ ed_group), HA. Qed.
Lemma pt_01 : pt 0 1 = ed_B.
Proof using. unfold pt, ed_mul. rewrite zmul_0, (zmul_1 _ _ _ _ _ ed_group _ ed_B_on). apply (g_0_l _ _ _ _ _ ed_group), ed_B_on. Qed.
Lemma pt_11 : pt 1 1 = ed_add A ed_B.
Proof using HA. unfold pt, ed_mul. now rewrite (zmul_1 _ _ _ _ _ ed_group _ ed_B_on), (zmul_1 _ _ _ _ _ ed_group _ HA). Qed.
Lemma pt_1m : pt 1 (-1) = ed_add A (ed_neg ed_B).
Proof using HA. unfold pt, ed_mul. change (-1) with (Z.opp 1). now rewrite (zmul_neg _ _ _ _ _ ed_group _ _ ed_B_on), (zmul_1 _ _ _ _ _ ed_group _ ed_B_on), (zmul_1 _ _ _ _ _ ed_group _ HA). Qed.
Lemma u01 i : i = 1 \/ i = -1 -> urep (cs_set 9) (pt 0 i).
Proof using HA.
  intros [->| ->]; [rewrite pt_01; exact urep_B|]. change (pt 0 (-1)) with (pt (- 0) (- (1))). rewrite <- pt_neg, pt_01. apply urep_neg, urep_B.
Qed.
Lemma u10 i : i = 1 \/ i = -1 -> urep P (pt i 0).
Proof using HA UP.
  intros [->| ->]; [rewrite pt_10; exact UP|]. change (pt (-1) 0) with (pt (- (1)) (- 0)). rewrite <- pt_neg, pt_10. apply urep_neg, UP.
Qed.
Lemma u11 i : i = 1 \/ i = -1 -> urep S0 (pt i i).
Proof using HA U0.
  intros [->| ->]; [rewrite pt_11; exact U0|]. change (pt (-1) (-1)) with (pt (- (1)) (- (1))). rewrite <- pt_neg, pt_11. apply urep_neg, U0.
Qed.
Lemma u1m i : i = 1 \/ i = -1 -> urep S1 (pt i (- i)).
Proof using HA U1.
  intros [->| ->]; [change (- (1)) with (-1); rewrite pt_1m; exact U1|]. change (pt (-1) (- (-1))) with (pt (- (1)) (- (-1))). rewrite <- pt_neg, pt_1m. apply urep_neg, U1.
Qed.
Lemma dbl_pt s i j i' j' : mrep s (pt i j) -> i' = 2 * i -> j' = 2 * j ->
  mrep (cs_montDbl (cs_add (fst s) (snd s)) (cs_sub (fst s) (snd s))) (pt i' j').
Proof using HA.
  intros H -> ->. replace (2 * i) with (i + i) by lia. replace (2 * j) with (j + j) by lia. rewrite <- pt_add. now apply montDbl_ok.
Qed.
Lemma add_pt s1 s2 i1 j1 i2 j2 i j f : mrep s1 (pt i1 j1) -> mrep s2 (pt i2 j2) -> urep f (pt (i1 - i2) (j1 - j2)) -> i = i1 + i2 -> j = j1 + j2 ->
  mrep (cs_montAdd (cs_add (fst s1) (snd s1)) (cs_sub (fst s1) (snd s1)) (cs_add (fst s2) (snd s2)) (cs_sub (fst s2) (snd s2)) f) (pt i j).
Proof using HA.
  intros H1 H2 H3 -> ->. rewrite <- pt_add. apply montAdd_ok; [exact H1|exact H2|]. rewrite pt_neg, pt_add. exact H3.
Qed.

(** the even and the odd one of V, V + 1 *)
Definition ev (V : Z) : Z := V + Z.b2z (Z.odd V).
Definition od (V : Z) : Z := V + 1 - Z.b2z (Z.odd V).
Definition cst (V H : Z) (d : bool) (y : xz * xz * xz) : Prop :=
  let '(y0, y1, y2) := y in
  mrep y0 (pt (ev V) (ev H)) /\ mrep y2 (pt (od V) (od H)) /\ mrep y1 (if d then pt (od V) (ev H) else pt (ev V) (od H)).
Lemma odd_new V b : Z.odd (2 * V + Z.b2z b) = b.
Proof using. rewrite Z.add_comm, Z.odd_add_mul_2. now destruct b. Qed.
Lemma ev_new V b : ev (2 * V + Z.b2z b) = 2 * V + 2 * Z.b2z b. Proof using. unfold ev. rewrite odd_new. lia. Qed.
Lemma od_new V b : od (2 * V + Z.b2z b) = 2 * V + 1. Proof using. unfold od. rewrite odd_new. lia. Qed.
Lemma vround_ok V H vb hb dO db vj hj dj y :
  Z.testbit vj 0 = vb -> Z.testbit vj 1 = Z.odd V -> Z.testbit hj 0 = hb -> Z.testbit hj 1 = Z.odd H ->
  Z.testbit dj 0 = db -> Z.testbit dj 1 = dO -> dO = rel (Z.odd V) vb (Z.odd H) hb db ->
  cst V H dO y -> cst (2 * V + Z.b2z vb) (2 * H + Z.b2z hb) db (cs_vround P S0 S1 vj hj dj y).
Proof using HA UP U0 U1.
  intros V0 V1 H0 H1 D0 D1 R. destruct y as [[y0 y1] y2]. unfold cs_vround. cbv zeta. rewrite !sel_k, sel_d, sel_0, sel_s, V0, V1, H0, H1, D0, D1. clear V0 V1 H0 H1 D0 D1 vj hj dj.
  unfold cst. rewrite !ev_new, !od_new. unfold ev, od. destruct (Z.odd V), (Z.odd H), vb, hb, db; cbn in R; subst dO; intros (Y0 & Y2 & Y1);
    cbn [xorb negb Z.b2z Z.add Z.eqb Pos.eqb Pos.add] in *;
    (split; [eapply dbl_pt; [eassumption|lia|lia]|]);
    (split; [eapply add_pt; [exact Y2|exact Y0| |lia|lia];
       match goal with |- urep S0 (pt ?a ?b) => replace b with a by lia; apply u11; lia | |- urep S1 (pt ?a ?b) => replace b with (- a) by lia; apply u1m; lia end|]);
    (eapply add_pt; [exact Y1|first [exact Y0 | exact Y2]| |lia|lia];
       match goal with |- urep P (pt ?a ?b) => replace b with 0 by lia; apply u10; lia | |- urep _ (pt ?a ?b) => replace a with 0 by lia; apply u01; lia end).
Qed.

Definition rels (V H D : Z) (n : Z) : Prop :=
  Z.testbit D (n + 1) = rel (Z.testbit V (n + 1)) (Z.testbit V n) (Z.testbit H (n + 1)) (Z.testbit H n) (Z.testbit D n).
Lemma half V j : 0 <= j -> V / 2 ^ j = 2 * (V / 2 ^ (j + 1)) + Z.b2z (Z.testbit V j).
Proof using.
  intros Hj. rewrite Z.pow_add_r by lia. rewrite <- Z.div_div by (try lia; apply Z.pow_pos_nonneg; lia). change (2 ^ 1) with 2.
  rewrite Z.testbit_spec' by exact Hj. pose proof (Z.div_mod (V / 2 ^ j) 2 ltac:(lia)). lia.
Qed.
Lemma odd_half V j : 0 <= j -> Z.odd (V / 2 ^ j) = Z.testbit V j.
Proof using. intros Hj. rewrite <- Z.shiftr_div_pow2 by exact Hj. rewrite <- Z.bit0_odd, Z.shiftr_spec by lia. reflexivity. Qed.
Lemma round_j V H D vi hi di j y : 0 <= j < 8 ->
  (forall m, 0 <= m <= 8 -> Z.testbit vi m = Z.testbit V m) -> (forall m, 0 <= m <= 8 -> Z.testbit hi m = Z.testbit H m) ->
  (forall m, 0 <= m <= 8 -> Z.testbit di m = Z.testbit D m) -> rels V H D j ->
  cst (V / 2 ^ (j + 1)) (H / 2 ^ (j + 1)) (Z.testbit D (j + 1)) y ->
  cst (V / 2 ^ j) (H / 2 ^ j) (Z.testbit D j) (cs_vround P S0 S1 (Z.shiftr vi j) (Z.shiftr hi j) (Z.shiftr di j) y).
Proof using HA UP U0 U1.
  intros Hj BV BH BD R C. rewrite (half V j), (half H j) by lia.
  assert (SH : forall x, Z.testbit (Z.shiftr x j) 0 = Z.testbit x j) by (intros; now rewrite Z.shiftr_spec by lia).
  assert (SH1 : forall x, Z.testbit (Z.shiftr x j) 1 = Z.testbit x (j + 1)) by (intros; rewrite Z.shiftr_spec by lia; f_equal; lia).
  apply (vround_ok _ _ _ _ (Z.testbit D (j + 1))); rewrite ?SH, ?SH1, ?BV, ?BH, ?BD, ?odd_half by lia; try reflexivity; [exact R|exact C].
Qed.
Lemma vbyte_ok V H D vb hb db vi hi di y : byte_ok vb -> byte_ok hb -> byte_ok db ->
  Z.testbit vi 0 = Z.odd V -> Z.testbit hi 0 = Z.odd H -> Z.testbit di 0 = Z.odd D -> cst V H (Z.odd D) y ->
  (forall n, 0 <= n < 8 -> rels (vb + 256 * V) (hb + 256 * H) (db + 256 * D) n) ->
  let '(vi', hi', di', y') := cs_vbyte P S0 S1 (vi, hi, di, y) (vb, hb, db) in
  Z.testbit vi' 0 = Z.odd (vb + 256 * V) /\ Z.testbit hi' 0 = Z.odd (hb + 256 * H) /\ Z.testbit di' 0 = Z.odd (db + 256 * D) /\
  cst (vb + 256 * V) (hb + 256 * H) (Z.odd (db + 256 * D)) y'.
Proof using HA UP U0 U1.
  intros Bv Bh Bd Ev Eh Ed C R. unfold cs_vbyte, byte_ok in *. cbv zeta.
  pose proof (fun m => bit_byte vi vb V m Bv Ev) as BV. pose proof (fun m => bit_byte hi hb H m Bh Eh) as BH. pose proof (fun m => bit_byte di db D m Bd Ed) as BD.
  set (vi' := i64 (Z.lor (Z.shiftl vi 8) vb)) in *. set (hi' := i64 (Z.lor (Z.shiftl hi 8) hb)) in *. set (di' := i64 (Z.lor (Z.shiftl di 8) db)) in *. clearbody vi' hi' di'.
  assert (DV : forall b X, 0 <= b < 256 -> (b + 256 * X) / 2 ^ (7 + 1) = X) by (intros b X Hb; change (2 ^ (7 + 1)) with 256; rewrite Z.mul_comm, Z.div_add, Z.div_small by lia; reflexivity).
  assert (TD : Z.testbit (db + 256 * D) (7 + 1) = Z.odd D) by (rewrite <- odd_half by lia; now rewrite DV).
  set (V' := vb + 256 * V) in *. set (H' := hb + 256 * H) in *. set (D' := db + 256 * D) in *.
  assert (C8 : cst (V' / 2 ^ (7 + 1)) (H' / 2 ^ (7 + 1)) (Z.testbit D' (7 + 1)) y) by (rewrite TD; unfold V', H'; rewrite !DV by assumption; exact C).
  split; [rewrite BV by lia; apply Z.bit0_odd|]. split; [rewrite BH by lia; apply Z.bit0_odd|]. split; [rewrite BD by lia; apply Z.bit0_odd|].
  cbn [fold_left]. assert (D1 : forall x, x / 2 ^ 0 = x) by (intros; apply Z.div_1_r). rewrite <- (D1 V'), <- (D1 H'), <- Z.bit0_odd.
  apply (round_j V' H' D' vi' hi' di' 0 _ ltac:(lia) BV BH BD (R 0 ltac:(lia))).
  apply (round_j V' H' D' vi' hi' di' 1 _ ltac:(lia) BV BH BD (R 1 ltac:(lia))).
  apply (round_j V' H' D' vi' hi' di' 2 _ ltac:(lia) BV BH BD (R 2 ltac:(lia))).
  apply (round_j V' H' D' vi' hi' di' 3 _ ltac:(lia) BV BH BD (R 3 ltac:(lia))).
  apply (round_j V' H' D' vi' hi' di' 4 _ ltac:(lia) BV BH BD (R 4 ltac:(lia))).
  apply (round_j V' H' D' vi' hi' di' 5 _ ltac:(lia) BV BH BD (R 5 ltac:(lia))).
  apply (round_j V' H' D' vi' hi' di' 6 _ ltac:(lia) BV BH BD (R 6 ltac:(lia))).
  apply (round_j V' H' D' vi' hi' di' 7 _ ltac:(lia) BV BH BD (R 7 ltac:(lia))). exact C8.
Qed.
Lemma chain_ok v : forall h d dt di0 y0, length h = length v -> length d = length v -> bytes_ok v -> bytes_ok h -> bytes_ok d ->
  Z.testbit di0 0 = dt -> cst 0 0 dt y0 ->
  let D := le2z d + bb (length v) * Z.b2z dt in
  (forall n, 0 <= n < 8 * Z.of_nat (length v) -> rels (le2z v) (le2z h) D n) ->
  let '(vi, hi, di, y) := fold_left (cs_vbyte P S0 S1) (rev (combine (combine v h) d)) (0, 0, di0, y0) in
  Z.testbit vi 0 = Z.odd (le2z v) /\ Z.testbit hi 0 = Z.odd (le2z h) /\ Z.testbit di 0 = Z.odd D /\ cst (le2z v) (le2z h) (Z.odd D) y.
Proof using HA UP U0 U1.
  induction v as [|vb v IH]; intros [|hb h] [|db d] dt di0 y0 L1 L2 Bv Bh Bd E C; cbn [length] in L1, L2; try discriminate; cbv zeta; intros R.
  - cbn [combine rev fold_left le2z length]. rewrite bb_0. assert (OD : Z.odd (0 + 1 * Z.b2z dt) = dt) by now destruct dt. rewrite OD. auto.
  - inversion Bv as [|? ? Bv0 Bv1]; inversion Bh as [|? ? Bh0 Bh1]; inversion Bd as [|? ? Bd0 Bd1]; subst.
    cbn [combine rev le2z length] in *. rewrite fold_left_app. cbn [fold_left].
    set (D := le2z d + bb (length v) * Z.b2z (Z.testbit di0 0)).
    assert (ED : db + 256 * le2z d + bb (S (length v)) * Z.b2z (Z.testbit di0 0) = db + 256 * D) by (unfold D; rewrite bb_S; ring).
    rewrite ED in *. clear ED. unfold byte_ok in *.
    assert (RS : forall n, 0 <= n < 8 * Z.of_nat (length v) -> rels (le2z v) (le2z h) D n).
    { intros n Hn. specialize (R (n + 8) ltac:(lia)). unfold rels in *. replace (n + 8 + 1) with (n + 1 + 8) in R by lia. rewrite !bit_hi in R by (assumption || lia). exact R. }
    specialize (IH h d (Z.testbit di0 0) di0 y0 ltac:(lia) ltac:(lia) Bv1 Bh1 Bd1 eq_refl C). cbv zeta in IH. fold D in IH. specialize (IH RS).
    destruct (fold_left (cs_vbyte P S0 S1) (rev (combine (combine v h) d)) (0, 0, di0, y0)) as [[[vi hi] di] y]. destruct IH as (I1 & I2 & I3 & I4).
    apply (vbyte_ok _ _ D); try assumption. intros n Hn. apply R. lia.
Qed.
End Chain.

(** ** cs_prep *)
Definition dk (nvh : Z) (x m : Z) : Z := Z.lxor x (Z.land nvh (Z.shiftl (Z.land x m) 1)).
Lemma dk_bit nvh x m n : 0 <= m -> 0 <= n -> Z.testbit (dk nvh x (2 ^ m)) n = xorb (Z.testbit x n) (Z.testbit nvh n && ((m + 1 =? n) && Z.testbit x m)).
Proof.
  intros Hm Hn. unfold dk. rewrite Z.lxor_spec, Z.land_spec, Z.shiftl_spec by exact Hn. f_equal. f_equal. rewrite Z.land_spec, bit_pow2 by exact Hm.
  destruct (Z.eqb_spec (m + 1) n) as [<-|N].
  - rewrite Z.add_simpl_r, Z.eqb_refl. apply andb_comm.
  - replace (m =? n - 1) with false by (symmetry; apply Z.eqb_neq; lia). now rewrite andb_false_r.
Qed.
Fixpoint up (nvh x : Z) (n : nat) : Z := match n with O => x | S n => dk nvh (up nvh x n) (2 ^ Z.of_nat n) end.
Lemma up_spec nvh x n :
  (forall m, Z.of_nat n < m -> Z.testbit (up nvh x n) m = Z.testbit x m) /\ Z.testbit (up nvh x n) 0 = Z.testbit x 0 /\
  (forall k, 0 <= k < Z.of_nat n -> Z.testbit (up nvh x n) (k + 1) = xorb (Z.testbit x (k + 1)) (Z.testbit nvh (k + 1) && Z.testbit (up nvh x n) k)).
Proof.
  induction n as [|n (I1 & I2 & I3)]; [split; [reflexivity|]; split; [reflexivity|]; intros k Hk; cbn in Hk; lia|]. rewrite Nat2Z.inj_succ. cbn [up].
  assert (NE : forall m, 0 <= m -> m <> Z.of_nat n + 1 -> Z.testbit (dk nvh (up nvh x n) (2 ^ Z.of_nat n)) m = Z.testbit (up nvh x n) m).
  { intros m Hm N. rewrite dk_bit by lia. replace (Z.of_nat n + 1 =? m) with false by (symmetry; apply Z.eqb_neq; lia). now rewrite andb_false_r, xorb_false_r. }
  split; [intros m Hm; rewrite NE by lia; apply I1; lia|]. split; [rewrite NE by lia; exact I2|]. intros k Hk.
  destruct (Z.eq_dec k (Z.of_nat n)) as [->|N].
  - rewrite (NE (Z.of_nat n)) by lia. rewrite dk_bit by lia. rewrite Z.eqb_refl, I1 by lia. reflexivity.
  - rewrite !NE by lia. apply I3. lia.
Qed.
Lemma up7 nvh x : fold_left (fun di m => Z.lxor di (Z.land nvh (Z.shiftl (Z.land di m) 1))) [0x01; 0x02; 0x04; 0x08; 0x10; 0x20; 0x40] x = up nvh x 7.
Proof. reflexivity. Qed.
Lemma bit512 x n : 0 <= x < 512 -> 9 <= n -> Z.testbit x n = false.
Proof. intros Hb Hn. apply Z.bits_above_log2; [lia|]. destruct (Z.eq_dec x 0) as [->|]; [cbn; lia|]. apply Z.log2_lt_pow2; [lia|]. apply Z.lt_le_trans with (2 ^ 9); [lia|apply Z.pow_le_mono_r; lia]. Qed.
Lemma lt512 x : 0 <= x -> (forall n, 9 <= n -> Z.testbit x n = false) -> x < 512.
Proof.
  intros H0 H. destruct (Z_lt_le_dec x 512) as [L|L]; [exact L|exfalso]. assert (LG : 9 <= Z.log2 x) by (apply (Z.log2_le_mono 512 x); exact L).
  pose proof (Z.bit_log2 x ltac:(lia)) as B. rewrite H in B by exact LG. discriminate.
Qed.
Definition xv (vi vb : Z) : Z := Z.lxor (Z.lxor (Z.shiftr vi 8) vb) (Z.shiftl vb 1).
Lemma xv_bits vi vb : 0 <= vi < 512 -> byte_ok vb ->
  Z.testbit (xv vi vb) 0 = xorb (Z.testbit vb 0) (Z.testbit vi 8) /\
  (forall n, 0 <= n < 7 -> Z.testbit (xv vi vb) (n + 1) = xorb (Z.testbit vb (n + 1)) (Z.testbit vb n)) /\
  Z.testbit (xv vi vb) 8 = Z.testbit vb 7 /\ 0 <= xv vi vb < 512.
Proof.
  unfold byte_ok. intros Hv Hb. unfold xv. split; [|split; [|split]].
  - rewrite !Z.lxor_spec, Z.shiftr_spec, Z.shiftl_spec by lia. rewrite (Z.testbit_neg_r vb (0 - 1)) by lia. cbn [Z.add]. rewrite xorb_false_r. apply xorb_comm.
  - intros n Hn. rewrite !Z.lxor_spec, Z.shiftr_spec, Z.shiftl_spec by lia. rewrite (bit512 vi) by lia. rewrite Z.add_simpl_r. now destruct (Z.testbit vb (n + 1)), (Z.testbit vb n).
  - rewrite !Z.lxor_spec, Z.shiftr_spec, Z.shiftl_spec by lia. rewrite (bit512 vi) by lia. rewrite (bit_small vb 8) by lia. apply xorb_false_l.
  - assert (P0 : 0 <= Z.lxor (Z.lxor (Z.shiftr vi 8) vb) (Z.shiftl vb 1)).
    { apply Z.lxor_nonneg. split; intros _; [apply Z.shiftl_nonneg; lia|]. apply Z.lxor_nonneg. split; intros _; [lia|apply Z.shiftr_nonneg; lia]. }
    split; [exact P0|]. apply lt512; [exact P0|]. intros n Hn. rewrite !Z.lxor_spec, Z.shiftr_spec, Z.shiftl_spec by lia.
    rewrite (bit512 vi) by lia. rewrite !bit_small by lia. reflexivity.
Qed.
Definition pstate (st : Z * Z * Z * Z) (pv ph pd : bool) : Prop :=
  let '(vi, hi, di, _) := st in
  0 <= vi < 512 /\ 0 <= hi < 512 /\ Z.testbit vi 8 = pv /\ Z.testbit hi 8 = ph /\ Z.testbit di 7 = pd.
Definition pre (X : Z) (p : bool) : Z := 2 * X + Z.b2z p.
Lemma pre_0 X p : Z.testbit (pre X p) 0 = p. Proof. unfold pre. now rewrite Z.bit0_odd, odd_new. Qed.
Lemma pre_S X p n : 0 <= n -> Z.testbit (pre X p) (n + 1) = Z.testbit X n.
Proof.
  intros Hn. unfold pre. rewrite <- Z.shiftr_spec by exact Hn. rewrite Z.shiftr_div_pow2 by lia. change (2 ^ 1) with 2. f_equal.
  rewrite Z.add_comm, Z.mul_comm, Z.div_add by lia. now destruct p.
Qed.
Lemma prep_ok st vb hb pv ph pd : pstate st pv ph pd -> byte_ok vb -> byte_ok hb ->
  let '(st', db) := cs_prep st vb hb in
  pstate st' (Z.testbit vb 7) (Z.testbit hb 7) (Z.testbit db 7) /\ byte_ok db /\
  (let '(vi', hi', _, nvh) := st' in Z.testbit nvh 8 = negb (xorb (Z.testbit vi' 8) (Z.testbit hi' 8))) /\
  (forall n, 0 <= n < 8 -> rels (pre vb pv) (pre hb ph) (pre db pd) n).
Proof.
  destruct st as [[[vi hi] di] nv]. intros (Bv & Bh & <- & <- & <-) Hv Hh. unfold cs_prep. cbv zeta. rewrite up7. fold (xv vi vb) (xv hi hb).
  destruct (xv_bits vi vb Bv Hv) as (V0 & VS & V8 & VB). destruct (xv_bits hi hb Bh Hh) as (H0 & HS & H8 & HB).
  set (x := xv vi vb) in *. set (y := xv hi hb) in *. set (nvh := Z.lnot (Z.lxor x y)).
  assert (NB : forall n, 0 <= n -> Z.testbit nvh n = negb (xorb (Z.testbit x n) (Z.testbit y n))) by (intros; unfold nvh; rewrite Z.lnot_spec, Z.lxor_spec by assumption; reflexivity).
  set (s := Z.lxor (Z.land nvh (Z.shiftr (Z.land di 128) 7)) x).
  assert (SB0 : Z.testbit s 0 = xorb (Z.testbit x 0) (Z.testbit nvh 0 && Z.testbit di 7)).
  { unfold s. rewrite Z.lxor_spec, Z.land_spec, Z.shiftr_spec, Z.land_spec by lia. change (0 + 7) with 7. change (Z.testbit 128 7) with true. rewrite andb_true_r. apply xorb_comm. }
  assert (SBS : forall n, 0 <= n -> Z.testbit s (n + 1) = Z.testbit x (n + 1)).
  { intros n Hn. unfold s. rewrite Z.lxor_spec, Z.land_spec, Z.shiftr_spec, Z.land_spec by lia. change 128 with (2 ^ 7). rewrite bit_pow2 by lia.
    replace (7 =? n + 1 + 7) with false by (symmetry; apply Z.eqb_neq; lia). rewrite !andb_false_r. apply xorb_false_l. }
  destruct (up_spec nvh s 7) as (_ & U0 & US). set (u := up nvh s 7) in *. clearbody u. clearbody s. clearbody nvh.
  assert (MB : forall n, 0 <= n < 8 -> Z.testbit (u mod 256) n = Z.testbit u n) by (intros; change 256 with (2 ^ 8); apply Z.mod_pow2_bits_low; lia).
  clearbody x y.
  split; [|split; [apply Z.mod_pos_bound; lia|split; [apply NB; lia|]]].
  - cbn [pstate]. split; [exact VB|]. split; [exact HB|]. split; [exact V8|]. split; [exact H8|]. symmetry. apply MB. lia.
  - intros n Hn. unfold rels. rewrite !pre_S by lia. rewrite MB by lia. destruct (Z.eq_dec n 0) as [->|N].
    + rewrite !pre_0. rewrite U0, SB0, NB by lia. rewrite V0, H0. reflexivity.
    + replace n with ((n - 1) + 1) by lia. set (k := n - 1). assert (Hk : 0 <= k < 7) by lia. rewrite !pre_S by lia. rewrite MB by lia.
      rewrite US by (cbn; lia). rewrite SBS, NB by lia. rewrite VS, HS by lia. reflexivity.
Qed.
Lemma pre_hi b X p n : 0 <= b < 256 -> 0 <= n -> Z.testbit (pre (b + 256 * X) p) (n + 8) = Z.testbit (pre X (Z.testbit b 7)) n.
Proof.
  intros Hb Hn. replace (n + 8) with (n + 7 + 1) by lia. rewrite pre_S by lia. destruct (Z.eq_dec n 0) as [->|N].
  - rewrite pre_0. apply bit_lo; lia.
  - replace n with (n - 1 + 1) by lia. rewrite pre_S by lia. replace (n - 1 + 1 + 7) with (n - 1 + 8) by lia. apply bit_hi; lia.
Qed.
Lemma pre_lo b X p n : 0 <= b < 256 -> 0 <= n < 9 -> Z.testbit (pre (b + 256 * X) p) n = Z.testbit (pre b p) n.
Proof.
  intros Hb Hn. destruct (Z.eq_dec n 0) as [->|N]; [now rewrite !pre_0|]. replace n with (n - 1 + 1) by lia. rewrite !pre_S by lia. apply bit_lo; lia.
Qed.
Lemma preps_ok v : forall h st pv ph pd, length h = length v -> bytes_ok v -> bytes_ok h -> pstate st pv ph pd ->
  let '(st', d) := cs_preps st v h in
  length d = length v /\ bytes_ok d /\
  (let n := 8 * Z.of_nat (length v) in pstate st' (Z.testbit (pre (le2z v) pv) n) (Z.testbit (pre (le2z h) ph) n) (Z.testbit (pre (le2z d) pd) n)) /\
  (v <> [] -> let '(vi', hi', _, nvh) := st' in Z.testbit nvh 8 = negb (xorb (Z.testbit vi' 8) (Z.testbit hi' 8))) /\
  (forall n, 0 <= n < 8 * Z.of_nat (length v) -> rels (pre (le2z v) pv) (pre (le2z h) ph) (pre (le2z d) pd) n).
Proof.
  induction v as [|vb v IH]; intros [|hb h] st pv ph pd L Bv Bh PS; cbn [length] in L; try discriminate; cbn [cs_preps].
  - cbn [length le2z]. split; [reflexivity|]. split; [constructor|]. split; [cbv zeta; change (8 * Z.of_nat 0) with 0; rewrite !pre_0; exact PS|]. split; [congruence|]. intros n Hn. cbn in Hn. lia.
  - inversion Bv as [|? ? Bv0 Bv1]; inversion Bh as [|? ? Bh0 Bh1]; subst.
    pose proof (prep_ok st vb hb pv ph pd PS Bv0 Bh0) as Q. destruct (cs_prep st vb hb) as [st1 db]. destruct Q as (PS1 & Bd0 & NV & R0).
    specialize (IH h st1 _ _ _ ltac:(lia) Bv1 Bh1 PS1). destruct (cs_preps st1 v h) as [st2 d] eqn:EP. destruct IH as (LD & BD & PS2 & NV2 & RS).
    cbn [length le2z]. unfold byte_ok in *. split; [lia|]. split; [now constructor|]. cbv zeta in *.
    replace (8 * Z.of_nat (S (length v))) with (8 * Z.of_nat (length v) + 8) by lia. split; [rewrite !pre_hi by (assumption || lia); exact PS2|]. split.
    + intros _. destruct v as [|v0 v']; [|apply NV2; discriminate]. destruct h as [|]; [|discriminate]. cbn [cs_preps] in EP. assert (E : st1 = st2) by congruence. subst st2. exact NV.
    + intros n Hn. destruct (Z_lt_le_dec n 8) as [L8|G8].
      * specialize (R0 n ltac:(lia)). unfold rels in *. rewrite !pre_lo by (assumption || lia). exact R0.
      * specialize (RS (n - 8) ltac:(lia)). unfold rels in *. replace n with (n - 8 + 8) by lia. replace (n - 8 + 8 + 1) with (n - 8 + 1 + 8) by lia.
        rewrite !pre_hi by (assumption || lia). exact RS.
Qed.
