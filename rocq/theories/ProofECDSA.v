(** Correctness of the ECDSA code of ModelECDSA.v over any curve whose
    operations implement the group law. *)
Require Import ZArith List Lia Znumtheory Ring Field Bool.
Require Import Verif.Base Verif.Fp Verif.Weier Verif.Group Verif.EC Verif.SpecECDSA
  Verif.ModelK1 Verif.ModelECDSA.
Import ListNotations.
Open Scope Z_scope.

(** The operations of E compute the group law of c on canonical affine
    coordinates, (0, 0) standing for infinity. *)
Record implements (E : ecurve) (c : wcurve) : Prop := {
  im_valid : w_valid c;
  im_b : w_b c mod w_p c <> 0;
  im_psize : 2 ^ 255 < w_p c < 2 ^ 256;
  im_nsize : 2 ^ 255 < w_n c < 2 ^ 256;
  im_gap : - 2 ^ 247 < w_p c - w_n c < 2 ^ 247;
  im_34 : w_p c mod 4 = 3;
  im_P : e_P E = w_p c;
  im_N : e_N E = w_n c;
  im_add : forall P Q, w_on c P -> w_on c Q ->
    e_Add E (px c P) (py c P) (px c Q) (py c Q) = (px c (w_add c P Q), py c (w_add c P Q));
  im_mul : forall P k, w_on c P -> bytes_ok k ->
    e_ScalarMult E (px c P) (py c P) k = (px c (w_mul c (be2z k) P), py c (w_mul c (be2z k) P));
  im_base : forall k, bytes_ok k ->
    e_ScalarBaseMult E k = (px c (w_mul c (be2z k) (w_G c)), py c (w_mul c (be2z k) (w_G c))) }.

Section Curve.
Variable c : wcurve.
Hypothesis Hv : w_valid c.
Hypothesis Hb : w_b c mod w_p c <> 0.

Let Hf := wv_field c Hv.
Let Hp := wv_prime c Hf.
Lemma p_pos : 2 < w_p c. Proof. exact (wv_odd c Hf). Qed.
Lemma n_gt1 : 1 < w_n c. Proof. destruct (wv_nprime c Hv); auto. Qed.
Let HW := w_group c Hf.

Lemma Kf3 : field_theory (fp_of (w_p c) 0) (fp_of (w_p c) 1) fp_add fp_mul fp_sub fp_opp fp_div fp_inv eq.
Proof. exact (fp_field _ Hp). Qed.
Add Field KFS : Kf3.

Lemma px_bound P : 0 <= px c P < w_p c.
Proof. pose proof p_pos. destruct P; cbn [px]; [lia|]. apply fval_bound. lia. Qed.
Lemma py_bound P : 0 <= py c P < w_p c.
Proof. pose proof p_pos. destruct P; cbn [py]; [lia|]. apply fval_bound. lia. Qed.

Lemma px_paff x y : px c (paff c x y) = x mod w_p c.
Proof. reflexivity. Qed.
Lemma py_paff x y : py c (paff c x y) = y mod w_p c.
Proof. reflexivity. Qed.

Lemma paff_pxy P : P <> pinf c -> paff c (px c P) (py c P) = P.
Proof.
  destruct P as [|x y]; intros H; [exfalso; apply H; reflexivity|]. unfold paff. cbn [px py].
  rewrite !fp_of_val. reflexivity.
Qed.

(** (0, 0) is not on the curve. *)
Lemma on_00 P : w_on c P -> px c P = 0 -> py c P = 0 -> P = pinf c.
Proof.
  destruct P as [|x y]; [reflexivity|]. intros Ho Ex Ey. exfalso. apply Hb.
  assert (H : Aff (fp (w_p c)) x y = paff c 0 0).
  { rewrite <- (paff_pxy (Aff _ x y)) by discriminate. rewrite Ex, Ey. reflexivity. }
  rewrite H in Ho. apply paff_on_iff in Ho.
  replace (0 * 0 * 0 + w_a c * 0 + w_b c) with (w_b c) in Ho by ring.
  rewrite <- Ho. apply Zmod_0_l.
Qed.

Lemma inf_test P : w_on c P -> ((px c P =? 0) && (py c P =? 0) = true <-> P = pinf c).
Proof.
  intros Ho. rewrite andb_true_iff, !Z.eqb_eq. split; [intros []; apply on_00; auto|].
  intros ->. auto.
Qed.

Lemma G_on : w_on c (w_G c). Proof. exact (wv_Gon c Hv). Qed.
Lemma G_ne : w_G c <> pinf c. Proof. discriminate. Qed.
Lemma nG : w_mul c (w_n c) (w_G c) = pinf c. Proof. exact (wv_nG c Hv). Qed.
Lemma mul_on k P : w_on c P -> w_on c (w_mul c k P).
Proof. apply (zmul_ok _ _ _ _ _ HW). Qed.
Lemma add_on P Q : w_on c P -> w_on c Q -> w_on c (w_add c P Q).
Proof. apply (g_add _ _ _ _ _ HW). Qed.
Lemma neg_on P : w_on c P -> w_on c (w_neg c P).
Proof. apply (g_neg _ _ _ _ _ HW). Qed.

Lemma mulG_mod k : w_mul c (k mod w_n c) (w_G c) = w_mul c k (w_G c).
Proof. apply (zmul_mod _ _ _ _ _ HW); [exact G_on|exact nG]. Qed.
Lemma mulG_eq j k : j mod w_n c = k mod w_n c -> w_mul c j (w_G c) = w_mul c k (w_G c).
Proof. apply (zmul_congr _ _ _ _ _ HW); [exact G_on|exact nG]. Qed.
Lemma mulG_inf k : w_mul c k (w_G c) = pinf c <-> k mod w_n c = 0.
Proof.
  split; intros H.
  - apply (zmul_order _ _ _ _ _ HW (w_n c) k (w_G c)); auto using G_on, nG, G_ne.
    exact (wv_nprime c Hv).
  - rewrite <- mulG_mod, H. reflexivity.
Qed.
Lemma mulG_add j k : w_add c (w_mul c j (w_G c)) (w_mul c k (w_G c)) = w_mul c (j + k) (w_G c).
Proof. symmetry. apply (zmul_add _ _ _ _ _ HW). exact G_on. Qed.
Lemma mulG_mul j k : w_mul c j (w_mul c k (w_G c)) = w_mul c (j * k) (w_G c).
Proof. symmetry. apply (zmul_mul _ _ _ _ _ HW). exact G_on. Qed.
Lemma mulG_neg k : w_neg c (w_mul c k (w_G c)) = w_mul c (- k) (w_G c).
Proof. symmetry. apply (zmul_neg _ _ _ _ _ HW). exact G_on. Qed.

Lemma px_neg P : px c (w_neg c P) = px c P.
Proof. destruct P; reflexivity. Qed.
Lemma py_neg P : py c (w_neg c P) = (- py c P) mod w_p c.
Proof.
  destruct P as [|x y]; [reflexivity|]. cbn [w_neg pneg py].
  unfold fp_opp. rewrite fval_of. reflexivity.
Qed.

(** A point with given x is one of two opposite points. *)
Lemma same_x P Q : w_on c P -> w_on c Q -> P <> pinf c -> Q <> pinf c ->
  px c P = px c Q -> P = Q \/ P = w_neg c Q.
Proof.
  destruct P as [|x1 y1], Q as [|x2 y2]; intros HP HQ N1 N2 E;
    try (exfalso; solve [apply N1; reflexivity | apply N2; reflexivity]).
  cbn [px] in E. apply fp_eq in E. subst x2.
  unfold w_on in HP, HQ. cbn [on_curve] in HP, HQ. rewrite <- HQ in HP. clear HQ.
  destruct (k_integral _ _ _ _ _ _ _ _ _ Kf3 fp_dec (fp_sub y1 y2) (fp_add y1 y2)) as [H|H].
  - transitivity (fp_sub (fp_mul y1 y1) (fp_mul y2 y2)); [ring|]. rewrite HP. ring.
  - left. f_equal. apply (k_sub0 _ _ _ _ _ _ _ _ _ Kf3). exact H.
  - right. cbn [w_neg pneg]. f_equal.
    transitivity (fp_sub (fp_add y1 y2) y2); [ring|]. rewrite H. ring.
Qed.

End Curve.

(** ** Bytes *)

Lemma nth_z2le n : forall i z, (i < n)%nat -> 0 <= z ->
  nth i (z2le n z) 0 = (z / 256 ^ Z.of_nat i) mod 256.
Proof.
  induction n as [|n IH]; intros i z Hi Hz; [lia|]. destruct i as [|i]; cbn [z2le nth].
  - change (256 ^ Z.of_nat 0) with 1. rewrite Z.div_1_r. reflexivity.
  - rewrite IH by (clear - Hi Hz; try lia; apply Z.div_pos; lia).
    rewrite Nat2Z.inj_succ, Z.pow_succ_r, Z.div_div by (clear; try lia; apply Z.pow_pos_nonneg; lia).
    reflexivity.
Qed.

Lemma nth_z2be n i z : (i < n)%nat -> 0 <= z ->
  nth i (z2be n z) 0 = (z / 256 ^ Z.of_nat (n - 1 - i)) mod 256.
Proof.
  intros Hi Hz. unfold z2be. rewrite rev_nth by (rewrite z2le_length; exact Hi).
  rewrite z2le_length, nth_z2le by (clear - Hi Hz; lia).
  do 2 f_equal. f_equal. lia.
Qed.

Lemma land_128 b : 0 <= b < 256 -> (Z.land b 128 =? 0) = (b <? 128).
Proof.
  intros Hb. assert (E : Z.land b 128 = 128 * (b / 128)).
  { change 128 with (2 ^ 7) at 1.
    rewrite <- Z.shiftr_div_pow2 with (n := 7) by lia.
    change 128 with (2 ^ 7). rewrite Z.mul_comm, <- Z.shiftl_mul_pow2 by lia.
    apply Z.bits_inj'. intros i Hi. rewrite Z.land_spec.
    destruct (Z.ltb_spec i 7) as [L|L].
    - rewrite Z.shiftl_spec_low by lia. rewrite Z.pow2_bits_false by lia. apply andb_false_r.
    - rewrite Z.shiftl_spec_high by lia. rewrite Z.shiftr_spec by lia.
      replace (i - 7 + 7) with i by lia.
      destruct (Z.eq_dec i 7) as [->|Hne]; [rewrite Z.pow2_bits_true by lia; apply andb_true_r|].
      rewrite Z.pow2_bits_false by lia. rewrite andb_false_r. symmetry.
      apply Z.bits_above_log2; [lia|].
      assert (b < 2 ^ 8) by lia. destruct (Z.eq_dec b 0) as [->|]; [cbn; lia|].
      apply Z.log2_lt_pow2 in H; lia. }
  rewrite E. destruct (b <? 128) eqn:L; [apply Z.ltb_lt in L|apply Z.ltb_ge in L];
    [apply Z.eqb_eq|apply Z.eqb_neq]; lia.
Qed.

Lemma der_clean_spec z : 0 <= z < 2 ^ 256 -> (der_clean z = true <-> 2 ^ 247 <= z < 2 ^ 255).
Proof.
  intros Hz. unfold der_clean. rewrite pad32_big_bytes by exact Hz.
  rewrite !nth_z2be by lia.
  change (256 ^ Z.of_nat (32 - 1 - 0)) with (2 ^ 248).
  change (256 ^ Z.of_nat (32 - 1 - 1)) with (2 ^ 240).
  rewrite !land_128 by (apply Z.mod_pos_bound; lia).
  rewrite andb_true_iff, negb_true_iff, andb_false_iff, !Z.ltb_lt, Z.eqb_neq, Z.ltb_ge.
  assert (E0 : z / 2 ^ 248 = z / 2 ^ 240 / 256) by (rewrite Z.div_div by lia; reflexivity).
  rewrite E0.
  assert (Hq : 2 ^ 240 * (z / 2 ^ 240) <= z < 2 ^ 240 * (z / 2 ^ 240) + 2 ^ 240).
  { pose proof (Z.mul_div_le z (2 ^ 240) eq_refl).
    pose proof (Z.mul_succ_div_gt z (2 ^ 240) eq_refl). lia. }
  clear E0. set (q := z / 2 ^ 240) in *. clearbody q.
  change (2 ^ 247) with (2 ^ 240 * 128). change (2 ^ 255) with (2 ^ 240 * 32768).
  change (2 ^ 256) with (2 ^ 240 * 65536) in Hz.
  assert (Ht : 0 < 2 ^ 240) by reflexivity.
  set (t := 2 ^ 240) in *. clearbody t.
  assert (Hq2 : 0 <= q < 65536) by (clear - Hz Hq Ht; nia).
  assert (A : (128 <= q < 32768) <-> (t * 128 <= z < t * 32768)) by (clear - Hz Hq Ht; nia).
  rewrite <- A. clear A Hq Hz Ht. lia.
Qed.

Lemma log2_256 n : 2 ^ 255 < n < 2 ^ 256 -> Z.log2 n = 255.
Proof. intros H. apply Z.log2_unique; [lia|]. change (2 ^ Z.succ 255) with (2 ^ 256). lia. Qed.

Lemma hash_to_int_32 n hash : 2 ^ 255 < n < 2 ^ 256 -> length hash = 32%nat ->
  hash_to_int n hash = be2z hash.
Proof.
  intros Hn Hl. unfold hash_to_int. rewrite log2_256, Hl by exact Hn.
  change ((255 + 1 + 7) / 8 <? Z.of_nat 32) with false. cbv iota zeta. rewrite Hl. reflexivity.
Qed.

Lemma fermat_inverse_spec k n : prime n -> 2 < n -> k mod n <> 0 ->
  (fermat_inverse k n * k) mod n = 1.
Proof.
  intros Hn H2 Hk. unfold fermat_inverse. rewrite pow_mod_spec by lia.
  rewrite Zmult_mod_idemp_l, Z.mul_comm, <- Z.pow_succ_r by lia.
  replace (Z.succ (n - 2)) with (n - 1) by lia. apply fermat; auto.
Qed.

(** ** The generic code *)
Section Generic.
Variable E : ecurve.
Variable c : wcurve.
Hypothesis HE : implements E c.

Let Hv := im_valid E c HE.
Let Hb := im_b E c HE.
Let n := w_n c.
Let G := w_G c.
Lemma n_prime : prime n. Proof. exact (wv_nprime c Hv). Qed.
Lemma n_size : 2 ^ 255 < n < 2 ^ 256. Proof. exact (im_nsize E c HE). Qed.
Lemma p_size : 2 ^ 255 < w_p c < 2 ^ 256. Proof. exact (im_psize E c HE). Qed.

Lemma marshal_pxy P : marshal_xy (px c P) (py c P) = point_bytes c P.
Proof.
  pose proof p_size. pose proof (px_bound c Hv P). pose proof (py_bound c Hv P).
  unfold marshal_xy, point_bytes. rewrite !pad32_big_bytes by lia. reflexivity.
Qed.

Lemma base_mul k : 0 <= k -> e_ScalarBaseMult E (big_bytes k) = (px c (w_mul c k G), py c (w_mul c k G)).
Proof.
  intros Hk. rewrite (im_base E c HE) by apply big_bytes_ok. rewrite be2z_big_bytes by exact Hk. reflexivity.
Qed.
Lemma point_mul_z P k : w_on c P -> 0 <= k ->
  e_ScalarMult E (px c P) (py c P) (big_bytes k) = (px c (w_mul c k P), py c (w_mul c k P)).
Proof.
  intros HP Hk. rewrite (im_mul E c HE) by (auto using big_bytes_ok).
  rewrite be2z_big_bytes by exact Hk. reflexivity.
Qed.

(** Key generation. *)
Theorem gen_public_key_spec prikey : bytes_ok prikey ->
  gen_public_key E prikey =
    if (length prikey =? 32)%nat && (0 <? be2z prikey) && (be2z prikey <? n)
    then Ok (point_bytes c (w_mul c (be2z prikey) G))
    else Err ErrPrivateKeyIllegal.
Proof.
  intros Hk. unfold gen_public_key. rewrite (im_N E c HE). fold n.
  destruct (length prikey =? 32)%nat; cbn [negb andb]; [|reflexivity].
  pose proof (be2z_bound _ Hk) as Hd.
  destruct (be2z prikey =? 0) eqn:E0; [apply Z.eqb_eq in E0|apply Z.eqb_neq in E0].
  { rewrite E0. reflexivity. }
  replace (0 <? be2z prikey) with true by (symmetry; apply Z.ltb_lt; lia). cbn [andb].
  rewrite Z.leb_antisym. destruct (be2z prikey <? n); cbn [negb]; [|reflexivity].
  rewrite (im_base E c HE) by exact Hk. rewrite marshal_pxy. reflexivity.
Qed.

(** Verification. *)
Lemma verify_generic_spec P e r s : w_on c P -> s mod n <> 0 ->
  verify_generic E (px c P) (py c P) e r s = true <->
  exists w, (s * w) mod n = 1 /\ let R := w_add c (w_mul c ((e * w) mod n) G) (w_mul c ((r * w) mod n) P) in
    R <> pinf c /\ px c R mod n = r.
Proof.
  intros HP Hs. unfold verify_generic. rewrite (im_N E c HE). fold n.
  pose proof (n_gt1 c Hv) as Hn1. fold n in Hn1.
  destruct (mod_inverse_prime s n n_prime Hs) as [w Hw]. rewrite Hw.
  destruct (mod_inverse_some _ _ _ Hn1 Hw) as [Bw Ew].
  assert (HM : forall z, 0 <= z mod n) by (intros z; apply Z.mod_pos_bound; lia).
  rewrite base_mul, point_mul_z by (auto using HM).
  rewrite (im_add E c HE) by (apply mul_on; auto; apply G_on; auto).
  set (R := w_add c (w_mul c ((e * w) mod n) G) (w_mul c ((r * w) mod n) P)).
  assert (HR : w_on c R) by (apply add_on; auto; apply mul_on; auto; apply G_on; auto).
  pose proof (inf_test c Hb R HR) as HT.
  split.
  - intros H. exists w. split; [exact Ew|]. cbn zeta. fold R.
    destruct ((px c R =? 0) && (py c R =? 0)); [discriminate|].
    split; [|apply Z.eqb_eq; exact H]. intros EI. apply HT in EI. discriminate.
  - intros (w' & Ew' & H).
    assert (Em : w mod n = w' mod n).
    { apply (prime_cancel n n_prime s); auto. rewrite Ew, Ew'. reflexivity. }
    assert (ER : w_add c (w_mul c ((e * w') mod n) G) (w_mul c ((r * w') mod n) P) = R).
    { unfold R. rewrite <- (Zmult_mod_idemp_r w'), <- (Zmult_mod_idemp_r w' r), <- Em, !Zmult_mod_idemp_r.
      reflexivity. }
    cbn zeta in H. rewrite ER in H. destruct H as [H1 H2].
    destruct ((px c R =? 0) && (py c R =? 0)) eqn:ET; [exfalso; apply H1, HT; reflexivity|].
    apply Z.eqb_eq. exact H2.
Qed.

Theorem verify_ecdsa_spec P hash r s : w_on c P -> length hash = 32%nat ->
  verify_ecdsa E (px c P) (py c P) hash r s = true <-> ecdsa_valid c P (be2z hash) r s.
Proof.
  intros HP Hl. unfold verify_ecdsa, ecdsa_valid. rewrite (im_N E c HE). fold n.
  rewrite hash_to_int_32 by (auto using n_size).
  destruct ((r <=? 0) || (s <=? 0)) eqn:E1.
  { split; [discriminate|]. intros (H1 & H2 & _). apply orb_true_iff in E1. lia. }
  destruct ((n <=? r) || (n <=? s)) eqn:E2.
  { split; [discriminate|]. intros (H1 & H2 & _). apply orb_true_iff in E2. lia. }
  apply orb_false_iff in E1, E2.
  assert (0 < r < n /\ 0 < s < n) as [Hr Hs] by lia.
  rewrite verify_generic_spec by (auto; rewrite Z.mod_small; lia).
  split; [|tauto]. intros H. auto.
Qed.

(** Signing: what a returned (r, s, v) satisfies.  The nonce is k or -k. *)
Definition good_sig (d e r s v : Z) : Prop :=
  exists k, 0 < k < n /\ let R := w_mul c k G in
    r = px c R mod n /\ v = py c R mod 2 /\ (s * k) mod n = (d * r + e) mod n /\ 2 ^ 247 <= r < 2 ^ 255 /\ 2 ^ 247 <= s < 2 ^ 255 /\ 0 < s <= n / 2.

Lemma py_odd_neg R : w_on c R -> py c R <> 0 -> py c (w_neg c R) mod 2 = 1 - py c R mod 2.
Proof.
  intros HR H. rewrite py_neg. pose proof (py_bound c Hv R) as Hy. pose proof (im_34 E c HE) as H4.
  rewrite Z.mod_opp_l_nz by (try lia; rewrite Z.mod_small; lia).
  rewrite (Z.mod_small (py c R)) by lia. clear - H4. lia.
Qed.

Lemma mulG_py_ne k : 0 < k < n -> py c (w_mul c k G) <> 0.
Proof.
  intros Hk Hy. pose proof n_prime as Hn. pose proof n_size as Hns.
  assert (HN : w_mul c k G <> pinf c).
  { intros EI. apply mulG_inf in EI; auto. fold n in EI. rewrite Z.mod_small in EI; lia. }
  assert (EN : w_neg c (w_mul c k G) = w_mul c k G).
  { destruct (w_mul c k G) as [|x y]; [reflexivity|]. cbn [py] in Hy. cbn [w_neg pneg]. f_equal.
    apply fp_eq. unfold fp_opp. rewrite fval_of, Hy. reflexivity. }
  assert (E2 : w_mul c (2 * k) G = pinf c).
  { replace (2 * k) with (k + k) by lia. rewrite <- mulG_add by exact Hv.
    fold G. rewrite <- EN at 1. apply (gneg_l _ _ _ _ _ (w_group c (wv_field c Hv))).
    apply mul_on; auto. apply G_on; auto. }
  apply mulG_inf in E2; auto. fold n in E2.
  apply prime_mul_0 in E2; auto. rewrite !Z.mod_small in E2 by lia. lia.
Qed.

Lemma sign_loop_spec d e draws fuel : forall i r s v,
  sign_loop E d e draws fuel i = Some (r, s, v) -> good_sig d e r s v.
Proof.
  pose proof n_prime as Hn. pose proof n_size as Hns.
  induction fuel as [|f IH]; intros i r s v H; cbn [sign_loop] in H; [discriminate|].
  rewrite (im_N E c HE) in H. fold n in H.
  set (k := rand_field_element n (draws i)) in *.
  assert (Hk : 0 < k < n).
  { unfold k, rand_field_element. pose proof (Z.mod_pos_bound (be2z (draws i)) (n - 1)). lia. }
  clearbody k.
  rewrite base_mul in H by lia.
  set (R := w_mul c k G) in *.
  assert (HR : w_on c R) by (apply mul_on; auto; apply G_on; auto).
  destruct (px c R mod n =? 0) eqn:E0; [eapply IH; exact H|].
  assert (Br : 0 <= px c R mod n < n) by (apply Z.mod_pos_bound; lia).
  destruct (der_clean (px c R mod n)) eqn:E1; cbn [negb] in H; [|eapply IH; exact H].
  apply der_clean_spec in E1; [|lia].
  assert (Ev : (if py c R mod 2 =? 1 then 1 else 0) = py c R mod 2).
  { clear. pose proof (Z.mod_pos_bound (py c R) 2 eq_refl). destruct (py c R mod 2 =? 1) eqn:Q; lia. }
  rewrite Ev in H. clear Ev.
  set (s0 := ((d * (px c R mod n) + e) * fermat_inverse k n) mod n) in *.
  assert (Bs : 0 <= s0 < n) by (apply Z.mod_pos_bound; lia).
  assert (Es : (s0 * k) mod n = (d * (px c R mod n) + e) mod n).
  { unfold s0. rewrite Zmult_mod_idemp_l, <- Z.mul_assoc, Zmult_mod.
    rewrite fermat_inverse_spec by (auto; try lia; rewrite Z.mod_small; lia).
    rewrite Z.mul_1_r, Zmod_mod. reflexivity. }
  clearbody s0.
  destruct (s0 =? 0) eqn:E2; [eapply IH; exact H|]. apply Z.eqb_neq in E2.
  destruct (n / 2 <? s0) eqn:E3; [apply Z.ltb_lt in E3|apply Z.ltb_ge in E3].
  - destruct (der_clean (n - s0)) eqn:E4; cbn [negb] in H; [|eapply IH; exact H].
    injection H as <- <- <-.
    apply der_clean_spec in E4; [|lia].
    exists (n - k). split; [lia|]. cbn zeta.
    assert (ER : w_mul c (n - k) G = w_neg c R).
    { unfold R. rewrite mulG_neg by exact Hv. apply mulG_eq; [exact Hv|]. fold n.
      replace (n - k) with (- k + 1 * n) by lia. apply Z.mod_add. lia. }
    rewrite ER, px_neg.
    split; [reflexivity|]. split.
    { rewrite py_odd_neg by (auto; apply mulG_py_ne; exact Hk).
      pose proof (Z.mod_pos_bound (py c R) 2 eq_refl).
      assert (py c R mod 2 = 0 \/ py c R mod 2 = 1) as [Q|Q] by lia; rewrite Q; reflexivity. }
    split.
    { replace ((n - s0) * (n - k)) with (s0 * k + (n - s0 - k) * n) by ring.
      rewrite Z.mod_add by lia. exact Es. }
    clear - E1 E4 E3 Bs E2 Hns. lia.
  - destruct (der_clean s0) eqn:E4; cbn [negb] in H; [|eapply IH; exact H].
    injection H as <- <- <-.
    apply der_clean_spec in E4; [|lia].
    exists k. split; [lia|]. cbn zeta. fold R.
    split; [reflexivity|]. split; [reflexivity|]. split; [exact Es|].
    clear - E1 E4 E3 Bs E2 Hns. lia.
Qed.

(** A good signature satisfies the verification equation for [d]G. *)
Lemma good_sig_R d e r s k w : 0 < k < n ->
  (s * k) mod n = (d * r + e) mod n -> (s * w) mod n = 1 ->
  w_add c (w_mul c ((e * w) mod n) G) (w_mul c ((r * w) mod n) (w_mul c d G)) = w_mul c k G.
Proof.
  intros Hk Es Ew. pose proof n_prime as Hn. pose proof n_size.
  rewrite mulG_mul, mulG_add by exact Hv. apply mulG_eq; [exact Hv|]. fold n.
  rewrite Z.add_mod, Zmod_mod, Zmult_mod_idemp_l, <- Z.add_mod by lia.
  replace (e * w + r * w * d) with (w * (d * r + e)) by ring.
  rewrite Zmult_mod, <- Es, <- Zmult_mod.
  replace (w * (s * k)) with ((s * w) * k) by ring.
  rewrite Zmult_mod, Ew, Z.mul_1_l, Zmod_mod. reflexivity.
Qed.

Lemma good_sig_valid d e r s v : good_sig d e r s v -> ecdsa_valid c (w_mul c d G) e r s.
Proof.
  intros (k & Hk & Er & Ev & Es & Br & Bs & Bs2). cbn zeta in *.
  pose proof n_prime as Hn. pose proof n_size as Hns.
  assert (0 < s < n) by lia.
  split; [fold n|split; [fold n; lia|]].
  { assert (0 <= r < n) by (rewrite Er; apply Z.mod_pos_bound; lia). lia. }
  fold n.
  destruct (mod_inverse_prime s n Hn) as [w Hw]; [rewrite Z.mod_small; lia|].
  destruct (mod_inverse_some s n w) as [_ Ew]; [lia|exact Hw|].
  exists w. split; [exact Ew|]. cbn zeta. fold G.
  rewrite (good_sig_R d e r s k w) by assumption.
  split; [|symmetry; exact Er].
  intros EI. apply mulG_inf in EI; auto. fold n in EI. rewrite Z.mod_small in EI; lia.
Qed.

End Generic.
