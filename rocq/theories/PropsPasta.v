(** Properties C20, C45-C51, C69-C71: package pasta (Mina signatures on the Pallas curve). *)
Require Import ZArith List Bool Lia Znumtheory Ring Field.
Require Import Verif.Base Verif.Fp Verif.Weier Verif.Group Verif.EC Verif.Curves Verif.SpecECDSA Verif.SpecPasta Verif.Mont63 Verif.Primes Verif.ModelApi Verif.ProofECDSA.
Require Import Verif.ModelPastaCode Verif.ProofPastaF Verif.ModelPasta Verif.ProofPastaG Verif.ProofPastaH Verif.ProofPastaI Verif.ProofPastaP Verif.ProofPastaS.
Import ListNotations.
Open Scope Z_scope.
Add Field KFp : Kfp.

(** The contract of crypto/rand.Read on a 32-byte buffer. *)
Definition rand_ok (rnd : nat -> bytes) : Prop := forall i, bytes_ok (rnd i) /\ length (rnd i) = 32%nat.
(** Legal keys of the package: 32 bytes, below 2^254. *)
Definition pasta_key (d : bytes) : Prop := bytes_ok d /\ length d = 32%nat /\ be2z d < 2 ^ 254.
Definition mina_msg (json : bytes -> option message) (msg : bytes) (m : message) : Prop := json msg = Some m /\ msg_ok m.

(** A dispatcher that runs the package, and a message, to show the hypotheses satisfiable. *)
Definition demo_rnd (i : nat) : bytes := z2be 32 (3 + Z.of_nat i).
Definition demo_msg : message := mkmessage [FieldOne] [] [zero4; FieldOne; zero4].
Definition demo_json (b : bytes) : option message := match b with [] => None | _ => Some demo_msg end.
Definition demo_pasta (B : backends) : backends :=
  {| bk_drbg := bk_drbg B; bk_entropy := bk_entropy B; bk_rand := bk_rand B; bk_fuel := 5; bk_r1 := bk_r1 B;
     bk_ed_normal := bk_ed_normal B; bk_ed := bk_ed B; bk_x := bk_x B;
     bk_sha256 := bk_sha256 B; bk_ed_baseadd := bk_ed_baseadd B; bk_ed_add := bk_ed_add B;
     bk_bls := bk_bls B; bk_bls_baseadd := bk_bls_baseadd B; bk_bls_aggregate := bk_bls_aggregate B;
     bk_pasta := pasta_pkg demo_json demo_rnd 5;
     bk_pasta_baseadd := fun p s => fuel_o (pasta_PointMulBaseGAdd p s); bk_pasta_add := fun p q => fuel_o (pasta_PointAdd p q);
     bk_pasta_mul := fun p s => fuel_o (pasta_PointMul p s); bk_pasta_decompress := fun p => fuel_o (pasta_PointDecompress p) |}.
Example demo_pasta_runs B : runs_pasta demo_json demo_rnd (demo_pasta B).
Proof. split; [reflexivity|]. repeat split. Qed.
Example demo_rnd_ok : rand_ok demo_rnd.
Proof. intros i. split; [apply z2be_ok | apply z2be_length]. Qed.
Example demo_msg_ok : mina_msg demo_json [1; 2] demo_msg.
Proof.
  split; [reflexivity|]. assert (O := one_okp). assert (Z := zero4_okp).
  split; [exact (Forall_cons _ O (Forall_nil _))|]. split; [constructor|]. split; [|reflexivity].
  exact (Forall_cons _ Z (Forall_cons _ O (Forall_cons _ Z (Forall_nil _)))).
Qed.
Example demo_key_ok : pasta_key (z2be 32 77).
Proof. split; [apply z2be_ok|]. split; [apply z2be_length|]. rewrite be2z_z2be. reflexivity. Qed.

(** ** C45: field arithmetic *)
(** a is the reduced Montgomery form of x modulo m: four 64-bit words holding x 2^256 mod m *)
Definition mform (m : Z) (a : list Z) (x : Z) : Prop :=
  length a = 4%nat /\ Forall (fun w => 0 <= w < 2 ^ 64) a /\ nth 0 a 0 + 2 ^ 64 * nth 1 a 0 + 2 ^ 128 * nth 2 a 0 + 2 ^ 192 * nth 3 a 0 = (x * 2 ^ 256) mod m.
Definition words4 (a : list Z) (v : Z) : Prop :=
  length a = 4%nat /\ Forall (fun w => 0 <= w < 2 ^ 64) a /\ nth 0 a 0 + 2 ^ 64 * nth 1 a 0 + 2 ^ 128 * nth 2 a 0 + 2 ^ 192 * nth 3 a 0 = v.
Lemma words4_iff a v : words4 a v <-> limbs4 a /\ lval a = v.
Proof.
  unfold words4, limbs4. split.
  - intros (L & W & E). split; [split; assumption|]. rewrite <- E. destruct (list4 a L) as (a0 & a1 & a2 & a3 & ->).
    unfold lval. cbn [fold_right nth]. unfold ProofW64.B64. ring.
  - intros ((L & W) & E). split; [exact L|]. split; [exact W|]. rewrite <- E. destruct (list4 a L) as (a0 & a1 & a2 & a3 & ->).
    unfold lval. cbn [fold_right nth]. unfold ProofW64.B64. ring.
Qed.
Section Mform.
Variables m i : Z.
Hypothesis Hi : (2 ^ 256 * i) mod m = 1.
Hypothesis Hm : 0 < m < 2 ^ 256.
Lemma mform_iff a x : mform m a x <-> limbs4 a /\ lval a = (x * 2 ^ 256) mod m.
Proof. apply words4_iff. Qed.
Lemma mform_mul r a b x y : mform m a x -> mform m b y -> limbs4 r -> 0 <= lval r < m -> (lval r * 2 ^ 256) mod m = (lval a * lval b) mod m -> mform m r (x * y).
Proof using All.
  rewrite !mform_iff. intros [_ Ea] [_ Eb] Lr Br E. split; [exact Lr|]. rewrite <- (Z.mod_small (lval r) m Br).
  apply (cancel_R m i); [exact Hi | exact Hm |]. rewrite E, Ea, Eb. rewrite <- Zmult_mod. f_equal. ring.
Qed.
Lemma mform_lt a x : mform m a x -> limbs4 a /\ 0 <= lval a < m.
Proof using All. rewrite mform_iff. intros [L E]. split; [exact L|]. rewrite E. apply Z.mod_pos_bound, Hm. Qed.
End Mform.
Definition field_exact (m : Z) (mul add sub : list Z -> list Z -> list Z) (sq opp to from : list Z -> list Z) : Prop :=
  (forall a b x y, mform m a x -> mform m b y -> mform m (mul a b) (x * y)) /\
  (forall a x, mform m a x -> mform m (sq a) (x * x)) /\
  (forall a b x y, mform m a x -> mform m b y -> mform m (add a b) (x + y)) /\
  (forall a b x y, mform m a x -> mform m b y -> mform m (sub a b) (x - y)) /\
  (forall a x, mform m a x -> mform m (opp a) (- x)) /\
  (forall a v, words4 a v -> mform m (to a) v) /\
  (forall a x, mform m a x -> words4 (from a) (x mod m)).
Section Exact.
Variables m i : Z.
Variables mul add sub : list Z -> list Z -> list Z.
Variables sq opp to from : list Z -> list Z.
Hypothesis Hi : (2 ^ 256 * i) mod m = 1.
Hypothesis Hm : 0 < m < 2 ^ 256.
Hypothesis H1 : forall a b, limbs4 a -> limbs4 b -> lval a * lval b < 2 ^ 256 * m -> limbs4 (mul a b) /\ 0 <= lval (mul a b) < m /\ (lval (mul a b) * 2 ^ 256) mod m = (lval a * lval b) mod m.
Hypothesis H2 : forall a, limbs4 a -> lval a * lval a < 2 ^ 256 * m -> limbs4 (sq a) /\ 0 <= lval (sq a) < m /\ (lval (sq a) * 2 ^ 256) mod m = (lval a * lval a) mod m.
Hypothesis H3 : forall a b, limbs4 a -> limbs4 b -> lval a + lval b < 2 * m -> limbs4 (add a b) /\ 0 <= lval (add a b) < m /\ lval (add a b) = (lval a + lval b) mod m.
Hypothesis H4 : forall a b, limbs4 a -> limbs4 b -> lval a < m -> lval b < m -> limbs4 (sub a b) /\ 0 <= lval (sub a b) < m /\ lval (sub a b) = (lval a - lval b) mod m.
Hypothesis H5 : forall a, limbs4 a -> lval a < m -> limbs4 (opp a) /\ 0 <= lval (opp a) < m /\ lval (opp a) = (- lval a) mod m.
Hypothesis H6 : forall a, limbs4 a -> limbs4 (to a) /\ 0 <= lval (to a) < m /\ lval (to a) mod m = (lval a * 2 ^ 256) mod m.
Hypothesis H7 : forall a, limbs4 a -> limbs4 (from a) /\ 0 <= lval (from a) < m /\ (lval (from a) * 2 ^ 256) mod m = lval a mod m.
Lemma exact_lemma : field_exact m mul add sub sq opp to from.
Proof using All.
  split; [|split; [|split; [|split; [|split; [|split]]]]].
  - intros a b x y Ha Hb. destruct (mform_lt m i Hi Hm _ _ Ha) as [La Ba], (mform_lt m i Hi Hm _ _ Hb) as [Lb Bb].
    destruct (H1 a b La Lb) as (K1 & K2 & K3); [exact (mul_lt_R _ _ _ _ Ba Bb (proj2 Hm))|]. exact (mform_mul m i Hi Hm _ a b x y Ha Hb K1 K2 K3).
  - intros a x Ha. destruct (mform_lt m i Hi Hm _ _ Ha) as [La Ba].
    destruct (H2 a La) as (K1 & K2 & K3); [exact (mul_lt_R _ _ _ _ Ba Ba (proj2 Hm))|]. exact (mform_mul m i Hi Hm _ a a x x Ha Ha K1 K2 K3).
  - intros a b x y Ha Hb. destruct (mform_lt m i Hi Hm _ _ Ha) as [La Ba], (mform_lt m i Hi Hm _ _ Hb) as [Lb Bb].
    apply mform_iff in Ha, Hb. destruct Ha as [_ Ea], Hb as [_ Eb].
    destruct (H3 a b La Lb (add_lt2 _ _ _ (proj2 Ba) (proj2 Bb))) as (K1 & K2 & K3). apply mform_iff. split; [exact K1|]. rewrite K3, Ea, Eb, <- Zplus_mod. f_equal. ring.
  - intros a b x y Ha Hb. destruct (mform_lt m i Hi Hm _ _ Ha) as [La Ba], (mform_lt m i Hi Hm _ _ Hb) as [Lb Bb].
    apply mform_iff in Ha, Hb. destruct Ha as [_ Ea], Hb as [_ Eb].
    destruct (H4 a b La Lb (proj2 Ba) (proj2 Bb)) as (K1 & K2 & K3). apply mform_iff. split; [exact K1|]. rewrite K3, Ea, Eb, <- Zminus_mod. f_equal. ring.
  - intros a x Ha. destruct (mform_lt m i Hi Hm _ _ Ha) as [La Ba].
    apply mform_iff in Ha. destruct Ha as [_ Ea].
    destruct (H5 a La (proj2 Ba)) as (K1 & K2 & K3). apply mform_iff. split; [exact K1|]. rewrite K3, Ea.
    replace (- ((x * 2 ^ 256) mod m)) with (0 - (x * 2 ^ 256) mod m) by ring. rewrite Zminus_mod_idemp_r. f_equal. ring.
  - intros a v Hv. apply words4_iff in Hv. destruct Hv as [La <-]. destruct (H6 a La) as (K1 & K2 & K3). apply mform_iff. split; [exact K1|].
    rewrite <- (Z.mod_small _ _ K2). exact K3.
  - intros a x Ha. apply mform_iff in Ha. destruct Ha as [La Ea]. destruct (H7 a La) as (K1 & K2 & K3). apply words4_iff. split; [exact K1|].
    rewrite <- (Z.mod_small _ _ K2). apply (cancel_R m i); [exact Hi | exact Hm |]. rewrite K3, Ea. apply Z.mod_mod. intros ->. discriminate (proj1 Hm).
Qed.
End Exact.
(** the moduli are primes: the base field and the scalar field of Pallas *)
Theorem C45_pasta_fields :
  prime (w_p pallas) /\ prime (w_n pallas) /\
  field_exact (w_p pallas) FpMul FpAdd FpSub FpSquare FpOpp FpToMontgomery FpFromMontgomery /\
  field_exact (w_n pallas) FqMul FqAdd FqSub FqSquare FqOpp FqToMontgomery FqFromMontgomery.
Proof.
  split; [exact pp_prime|]. split; [exact qq_prime|]. split.
  - exact (exact_lemma pp invp FpMul FpAdd FpSub FpSquare FpOpp FpToMontgomery FpFromMontgomery invp_ok HPp
      fp_mul_ok fp_square_ok fp_add_ok fp_sub_ok fp_opp_ok fp_to_ok fp_from_ok).
  - exact (exact_lemma qq invq FqMul FqAdd FqSub FqSquare FqOpp FqToMontgomery FqFromMontgomery invq_ok HPq
      fq_mul_ok fq_square_ok fq_add_ok fq_sub_ok fq_opp_ok fq_to_ok fq_from_ok).
Qed.
Print Assumptions C45_pasta_fields.
Example C45_mform : mform (w_p pallas) FieldOne 1.
Proof. apply mform_iff. split; [apply one_okp|]. vm_compute. reflexivity. Qed.
Transparent fe.
Lemma mform_rep a x : mform pp a x <-> rep a (fp_of pp x).
Proof.
  rewrite mform_iff.
    split.
    - intros [La Ea]. assert (O : okp a). { split; [exact La|]. rewrite Ea. apply Z.mod_pos_bound. reflexivity. }
      split; [exact O|]. unfold fe. apply fp_of_eq. rewrite Ea, Z.mul_mod_idemp_l by discriminate. rewrite <- Z.mul_assoc, <- Z.mul_mod_idemp_r, invp_ok by discriminate.
      rewrite Z.mul_1_r. reflexivity.
    - intros [O E]. split; [apply O|]. unfold fe in E. apply fp_of_eq in E.
      rewrite <- (Z.mod_small (lval a) pp) by (apply okp_bound; exact O). rewrite <- Z.mul_mod_idemp_l, <- E, Z.mul_mod_idemp_l by discriminate.
      rewrite <- Z.mul_assoc, (Z.mul_comm invp), <- Z.mul_mod_idemp_r, invp_ok by discriminate. rewrite Z.mul_1_r. reflexivity.
Qed.
Opaque fe.
(** inversion and square roots, built from them *)
Theorem C45_pasta_inverse_sqrt : forall a x, mform (w_p pallas) a x ->
  (x mod w_p pallas <> 0 -> exists y, mform (w_p pallas) (FpInv a) y /\ (x * y) mod w_p pallas = 1) /\
  ((exists r y, FpSqrt a = Some (Some r) /\ mform (w_p pallas) r y /\ (y * y) mod w_p pallas = x mod w_p pallas) \/
   (FpSqrt a = Some None /\ forall y, (y * y) mod w_p pallas <> x mod w_p pallas)).
Proof.
  pose proof mform_rep as R.
  intros a x Ha. apply R in Ha. split.
  - intros N. assert (Nx : fp_of pp x <> fp_of pp 0) by (intros E; apply fp_of_eq in E; exact (N E)).
    exists (fval (fp_inv (fp_of pp x))). split; [apply R; rewrite fp_of_val; exact (FpInv_ok a _ Ha Nx)|].
    assert (I2 : fp_mul (fp_of pp x) (fp_inv (fp_of pp x)) = fp_of pp 1) by (field; exact Nx). apply (f_equal fval) in I2. unfold fp_mul in I2. rewrite !fval_of in I2.
    rewrite Z.mul_mod_idemp_l in I2 by discriminate. exact I2.
  - destruct (FpSqrt_ok _ _ Ha) as [(r & y & E & Hr & Ey) | [E N]].
    + left. exists r, (fval y). split; [exact E|]. split; [apply R; rewrite fp_of_val; exact Hr|].
      apply (f_equal fval) in Ey. unfold fp_mul in Ey. rewrite !fval_of in Ey. exact Ey.
    + right. split; [exact E|]. intros y K. apply (N (fp_of pp y)). rewrite <- fp_of_mul. apply fp_of_eq. exact K.
Qed.
Print Assumptions C45_pasta_inverse_sqrt.

(** ** C69: key generation *)
Lemma api_gen B k : GenPubkey B k ECC_CURVE_PASTA = genpub_ret (sp_genpub (bk_pasta B) k). Proof. reflexivity. Qed.
Lemma api_sign B k ID m : Signature B k ID m ECC_CURVE_PASTA = sign_ret (with_v0 (sp_sign (bk_pasta B) k m)). Proof. reflexivity. Qed.
Lemma api_verify B p ID m s : Verify B p ID m s ECC_CURVE_PASTA = verify_ret (sp_verify (bk_pasta B) p m s). Proof. reflexivity. Qed.
Theorem C69_pasta_keygen : forall json rnd B d, runs_pasta json rnd B -> bytes_ok d ->
  (pasta_key d -> GenPubkey B d ECC_CURVE_PASTA = Ret (Some (point_bytes pallas (w_mul pallas (be2z d) (w_G pallas))), SUCCESS)) /\
  (~ pasta_key d -> GenPubkey B d ECC_CURVE_PASTA = Ret (None, FAILURE)).
Proof.
  intros json rnd B d HB Hd. rewrite api_gen, (proj1 HB). unfold pasta_pkg. cbn [sp_genpub]. split.
  - intros (_ & Hl & Hk). rewrite pasta_GenPublicKey_ok by assumption. reflexivity.
  - intros N. rewrite (proj2 (pasta_GenPublicKey_none d Hd)); [reflexivity|].
    destruct (Nat.eq_dec (length d) 32) as [L|L]; [right | left; exact L].
    destruct (Z.lt_ge_cases (be2z d) (2 ^ 254)) as [C|C]; [|exact C]. exfalso. apply N. split; [exact Hd | split; assumption].
Qed.
Print Assumptions C69_pasta_keygen.

(** ** C20 for PASTA: an illegal key is answered FAILURE, and the zero key is accepted *)
Theorem C20_pasta_refuted : forall json rnd B ID msg, runs_pasta json rnd B ->
  (forall d, bytes_ok d -> length d <> 32%nat \/ 2 ^ 254 <= be2z d ->
     GenPubkey B d ECC_CURVE_PASTA = Ret (None, FAILURE) /\ Signature B d ID msg ECC_CURVE_PASTA = Some (Ret (None, 0, FAILURE))) /\
  GenPubkey B (z2be 32 0) ECC_CURVE_PASTA = Ret (Some (z2be 32 0 ++ z2be 32 0), SUCCESS) /\ FAILURE <> ECC_PRIKEY_ILLEGAL.
Proof.
  intros json rnd B ID msg HB. split; [|split; [|discriminate]].
  - intros d Hd Hbad. rewrite api_gen, api_sign, (proj1 HB). unfold pasta_pkg. cbn [sp_genpub sp_sign]. unfold pasta_Sign.
    rewrite (proj2 (pasta_GenPublicKey_none d Hd) Hbad). split; reflexivity.
  - assert (E : be2z (z2be 32 0) = 0) by (rewrite be2z_z2be; reflexivity).
    rewrite (proj1 (C69_pasta_keygen json rnd B (z2be 32 0) HB (z2be_ok _ _))).
    + rewrite E. reflexivity.
    + split; [apply z2be_ok|]. split; [apply z2be_length|]. rewrite E. reflexivity.
Qed.
Print Assumptions C20_pasta_refuted.

(** ** C46: signatures *)
(** the scheme with the Mina parameters and the message m *)
Definition mina_signature (m : message) : Z -> Z -> bytes := mina_sig pallas (mina_hash m) (map fe (m_prefix m)) (map fe (m_suffix m)).
Definition mina_verifies (m : message) : pt pallas -> Z -> Z -> Prop := mina_valid pallas (mina_hash m) (map fe (m_prefix m)) (map fe (m_suffix m)).
Lemma mask_mod k : bytes_ok k -> length k = 32%nat -> be2z (mask_nonce k) = be2z k mod 2 ^ 250.
Proof.
  intros Hb Hl. destruct k as [|b t]; [discriminate|]. cbn [mask_nonce length] in *. injection Hl as Hl.
  inversion Hb as [|b' t' Bb T]; subst. rewrite !be2z_cons, Hl. pose proof (be2z_bound t T) as Bt. rewrite Hl in Bt.
  change (256 ^ Z.of_nat 31) with (2 ^ 248) in *. change 3 with (Z.ones 2). rewrite Z.land_ones by lia. change (2 ^ 2) with 4.
  assert (E : 2 ^ 250 = 4 * 2 ^ 248) by reflexivity. rewrite E. generalize dependent (be2z t). generalize dependent (2 ^ 248). clear.
  intros q _ x Bx. pose proof (Z.mod_pos_bound b 4 eq_refl).
  apply Z.mod_unique with (b / 4); [left; nia|]. pose proof (Z.div_mod b 4 ltac:(discriminate)). nia.
Qed.
(** The nonce is the first reading of 32 random bytes that is not 0 modulo 2^250. *)
Definition is_nonce (rnd : nat -> bytes) (k : Z) : Prop :=
  exists i, k = be2z (rnd i) mod 2 ^ 250 /\ k <> 0 /\ forall j, (j < i)%nat -> be2z (rnd j) mod 2 ^ 250 = 0.
Lemma draw_spec rnd : rand_ok rnd -> forall fuel i0, (forall j, (j < i0)%nat -> be2z (rnd j) mod 2 ^ 250 = 0) ->
  match draw_nonce rnd fuel i0 with
  | Some k => okq k /\ is_nonce rnd (fval (sc k))
  | None => forall j, (j < i0 + fuel)%nat -> be2z (rnd j) mod 2 ^ 250 = 0
  end.
Proof.
  intros Hr. induction fuel as [|fuel IH]; intros i0 Hz. { rewrite Nat.add_0_r. exact Hz. }
  cbn [draw_nonce]. destruct (Hr i0) as [Rb Rl]. destruct (mask_nonce_ok _ Rb Rl) as (Mb & Ml & Mlt).
  destruct (be_to_fq _ Mb Ml) as [K1 K2]. pose proof (mask_mod _ Rb Rl) as Em.
  assert (V : fval (sc (BigEndianBytesToFqMontgomeryArray (mask_nonce (rnd i0)))) = be2z (rnd i0) mod 2 ^ 250).
  { rewrite K2, fval_of, Em. apply Z.mod_small. pose proof (be2z_bound _ Mb) as [P _]. rewrite Em in *. pose proof qq_bound. assert (2 ^ 250 < 2 ^ 254) by reflexivity. lia. }
  destruct (NonZero (BigEndianBytesToFqMontgomeryArray (mask_nonce (rnd i0))) =? 0) eqn:E.
  - apply (proj1 (NonZero_sc _ K1)) in E. rewrite E in V. assert (V0 : be2z (rnd i0) mod 2 ^ 250 = 0) by (symmetry; exact V).
    replace (i0 + S fuel)%nat with (S i0 + fuel)%nat by lia. apply IH. intros j Hj.
    destruct (Nat.eq_dec j i0) as [->|]; [exact V0 | apply Hz; lia].
  - split; [exact K1|]. rewrite V. exists i0. split; [reflexivity|]. split; [|exact Hz].
    intros Z0. rewrite Z0 in V. assert (C : sc (BigEndianBytesToFqMontgomeryArray (mask_nonce (rnd i0))) = fp_of qq 0) by (apply fp_eq; exact V).
    apply (proj2 (NonZero_sc _ K1)) in C. exact (eq_true_false_abs _ C E).
Qed.
Theorem C46_pasta_sign : forall json rnd B d ID msg m, runs_pasta json rnd B -> rand_ok rnd -> pasta_key d -> mina_msg json msg m ->
  match Signature B d ID msg ECC_CURVE_PASTA with
  | Some r => exists k, is_nonce rnd k /\ r = Ret (Some (mina_signature m (be2z d) k), 0, SUCCESS)
  | None => forall j, (j < bk_fuel B)%nat -> be2z (rnd j) mod 2 ^ 250 = 0
  end.
Proof.
  intros json rnd B d ID msg m HB Hr (Hd & Ld & Bd) [Hj Hm]. rewrite api_sign, (proj1 HB). unfold pasta_pkg. cbn [sp_sign].
  pose proof (draw_spec rnd Hr (bk_fuel B) 0 ltac:(intros; lia)) as D. destruct (draw_nonce rnd (bk_fuel B) 0) as [k|] eqn:E.
  - destruct D as [D1 D2].
    pose proof (proj2 (pasta_Sign_ok json rnd (bk_fuel B) d msg m (mina_signature m (be2z d) (fval (sc k))) Hr Hd Ld Bd Hj Hm ltac:(congruence))) as Sg.
    rewrite Sg by (exists k; split; [exact E | reflexivity]). cbn [with_v0 sign_ret]. exists (fval (sc k)). split; [exact D2 | reflexivity].
  - unfold pasta_Sign. rewrite pasta_GenPublicKey_ok by assumption. rewrite Hj, E. cbn [with_v0 sign_ret]. exact D.
Qed.
Print Assumptions C46_pasta_sign.

(** group facts for the generator *)
Lemma gen_mul_neg c k P : w_field_ok c -> w_on c P -> w_mul c (- k) P = w_neg c (w_mul c k P).
Proof. intros Hf. apply (zmul_neg _ _ _ _ _ (w_group c Hf)). Qed.
Lemma gen_mul_mul c j k P : w_field_ok c -> w_on c P -> w_mul c (j * k) P = w_mul c j (w_mul c k P).
Proof. intros Hf. apply (zmul_mul _ _ _ _ _ (w_group c Hf)). Qed.
Definition mul_neg k P := gen_mul_neg pallas k P pf.
Definition mul_mul j k P := gen_mul_mul pallas j k P pf.
Lemma px_neg P : px pallas (w_neg pallas P) = px pallas P. Proof. destruct P; reflexivity. Qed.
Lemma py_neg P : Z.odd (py pallas P) = true -> Z.odd (py pallas (w_neg pallas P)) = false.
Proof.
  destruct P as [|x y]; [discriminate|]. cbn [py w_neg]. intros H.
  change (Z.odd (fval (fp_opp y)) = false). rewrite odd_opp, H; [reflexivity|]. intros ->. discriminate H.
Qed.
(** the commitment recomputed from a signature is the one signed with, with even y *)
Lemma sig_commit m d k s : 
  let R := w_mul pallas k (w_G pallas) in
  let P := w_mul pallas d (w_G pallas) in
  let e := mina_challenge m P (px pallas R) in
  s = ((if Z.odd (py pallas R) then - k else k) + e * d) mod qq ->
  let T := w_add pallas (w_mul pallas s (w_G pallas)) (w_neg pallas (w_mul pallas e P)) in
  px pallas T = px pallas R /\ Z.odd (py pallas T) = false.
Proof.
  intros R P e -> T. set (k' := if Z.odd (py pallas R) then - k else k) in *.
  assert (ET : T = w_mul pallas k' (w_G pallas)).
  { unfold T. rewrite mul_modq by exact G_on. unfold P. rewrite <- mul_mul, <- mul_neg, <- mul_add by exact G_on.
    apply (f_equal (fun z => w_mul pallas z (w_G pallas))). ring. }
  rewrite ET. unfold k'. destruct (Z.odd (py pallas R)) eqn:Eo.
  - rewrite mul_neg by exact G_on. split; [apply px_neg | apply py_neg; exact Eo].
  - split; [reflexivity | exact Eo].
Qed.
(** A signature (r, s) with its own key verifies, except when the x-coordinate of 2sG is r:
    then the two points added are equal and the addition can miss it. *)
Theorem C46_pasta_roundtrip_partial : forall json rnd B d ID ID' msg m sig v,
  runs_pasta json rnd B -> rand_ok rnd -> pasta_key d -> mina_msg json msg m ->
  Signature B d ID msg ECC_CURVE_PASTA = Some (Ret (Some sig, v, SUCCESS)) ->
  px pallas (w_mul pallas (2 * be2z (skipn 32 sig)) (w_G pallas)) <> be2z (firstn 32 sig) ->
  Verify B (point_bytes pallas (w_mul pallas (be2z d) (w_G pallas))) ID' msg sig ECC_CURVE_PASTA = Ret SUCCESS.
Proof.
  intros json rnd B d ID ID' msg m sig v HB Hr Hd Hm HS Hex.
  pose proof (C46_pasta_sign json rnd B d ID msg m HB Hr Hd Hm) as K. rewrite HS in K. destruct K as (k & _ & K).
  injection K as -> _. clear HS. destruct Hm as [Hj Hm].
  set (R := w_mul pallas k (w_G pallas)) in *. set (P := w_mul pallas (be2z d) (w_G pallas)) in *.
  set (s := ((if Z.odd (py pallas R) then - k else k) + mina_challenge m P (px pallas R) * be2z d) mod qq) in *.
  assert (Esig : mina_signature m (be2z d) k = z2be 32 (px pallas R) ++ z2be 32 s) by reflexivity.
  rewrite Esig in *. clear Esig. rewrite firstn_z2be, skipn_z2be in *.
  assert (Bs : be2z (z2be 32 s) = s).
  { rewrite be2z_z2be. apply Z.mod_small. rewrite pow256_32. assert (0 <= s < qq) by (apply Z.mod_pos_bound; reflexivity).
    pose proof qq_bound. assert (2 ^ 255 < 2 ^ 256) by reflexivity. clear - H H0 H1. lia. }
  rewrite Bs in Hex. rewrite be_z2be in Hex by apply px_bound.
  assert (OP : w_on pallas P) by (apply mul_on; exact G_on).
  destruct (dec64_point P OP) as (a & Ea & Ha & Pa).
  destruct (verify_eq json _ a msg m (z2be 32 (px pallas R) ++ z2be 32 s) Ea Ha) as (T & DT & EV).
  { rewrite Pa. exact OP. } { exact Hj. } { exact Hm. } { apply bytes_ok_app; apply z2be_ok. } { rewrite app_length, !z2be_length. reflexivity. }
  rewrite firstn_z2be, skipn_z2be, Bs, be_z2be, Pa in DT by apply px_bound. rewrite firstn_z2be, be_z2be in EV by apply px_bound.
  rewrite (Z.mod_small (px pallas R)) in DT, EV by apply px_bound.
  destruct (sig_commit m (be2z d) k s eq_refl) as [CX CY]. fold P in CX, CY. fold R in CX, CY.
  assert (ET : T = w_add pallas (w_mul pallas s (w_G pallas)) (w_neg pallas (w_mul pallas (mina_challenge m P (px pallas R)) P))).
  { destruct DT as [DT | (E & _ & _)]; [exact DT|]. exfalso. apply Hex. rewrite <- CX, <- E.
    replace (2 * s) with (s + s) by ring. rewrite mul_add by exact G_on. reflexivity. }
  rewrite api_verify, (proj1 HB). unfold pasta_pkg. cbn [sp_verify]. rewrite EV, ET. rewrite CX, Z.eqb_refl, andb_true_r.
  rewrite <- Z.negb_odd, CY. reflexivity.
Qed.
Print Assumptions C46_pasta_roundtrip_partial.

(** ** C47: verification binds to the key *)
(** For the 64-byte encoding of a curve point and the 33-byte encoding of a finite one
    ([enc_ok]): what is accepted satisfies the Schnorr equation (for r not 0 mod p), and what
    satisfies it is accepted, except when sG = -eP. *)
Theorem C47_pasta_verify_partial : forall json rnd B P pub ID msg m sig,
  runs_pasta json rnd B -> mina_msg json msg m -> w_on pallas P -> enc_ok P pub -> bytes_ok sig ->
  let r := be2z (firstn 32 sig) in let s := be2z (skipn 32 sig) in
  let v := Verify B pub ID msg sig ECC_CURVE_PASTA in
  (v = Ret SUCCESS \/ v = Ret FAILURE) /\
  (v = Ret SUCCESS -> length sig = 64%nat) /\
  (v = Ret SUCCESS -> r mod w_p pallas <> 0 -> mina_verifies m P r s) /\
  (length sig = 64%nat -> mina_verifies m P r s -> px pallas (w_mul pallas (2 * s) (w_G pallas)) <> r mod w_p pallas -> v = Ret SUCCESS).
Proof.
  intros json rnd B P pub ID msg m sig HB [Hj Hm] OP He Hs r s v. unfold v. rewrite api_verify, (proj1 HB). unfold pasta_pkg. cbn [sp_verify].
  destruct (Nat.eq_dec (length sig) 64) as [Ls|Ls].
  2:{ unfold pasta_Verify. rewrite (proj2 (Nat.eqb_neq _ _) Ls). cbn [negb]. split; [right; reflexivity|].
      split; [discriminate|]. split; [discriminate|]. intros; contradiction. }
  destruct (dec_ok P pub OP He) as (a & Ea & Ha & Pa).
  destruct (verify_eq json pub a msg m sig Ea Ha) as (T & DT & EV); [rewrite Pa; exact OP | exact Hj | exact Hm | exact Hs | exact Ls |].
  fold r s in DT, EV. rewrite Pa in DT. rewrite EV. clear EV.
  set (C := w_add pallas _ _) in DT. set (S := w_mul pallas s (w_G pallas)) in *. set (E := w_neg pallas _) in DT, C.
  assert (VC : mina_verifies m P r s <-> px pallas C = r mod pp /\ Z.odd (py pallas C) = false).
  { unfold mina_verifies, mina_valid, mina_commit. unfold C, E, S, mina_challenge, challenge.
    replace (fp_of pp (r mod pp)) with (fp_of pp r); [tauto|]. apply fp_of_eq. symmetry. apply Z.mod_mod. discriminate. }
  rewrite VC. cbn [fuel_o verify_ret].
  assert (Ev : (Z.even (py pallas T) && (px pallas T =? r mod pp)) = true <-> px pallas T = r mod pp /\ Z.odd (py pallas T) = false).
  { rewrite andb_true_iff, Z.eqb_eq, <- Z.negb_odd, negb_true_iff. tauto. }
  destruct (Z.even (py pallas T) && (px pallas T =? r mod pp)) eqn:Et.
  - split; [left; reflexivity|]. split; [intros _; exact Ls|]. split; [|intros; reflexivity].
    intros _ N. destruct DT as [<- | (_ & _ & E0)]; [apply Ev; reflexivity|]. exfalso. apply N.
    rewrite <- (proj1 (proj1 Ev eq_refl)), E0. reflexivity.
  - split; [right; reflexivity|]. split; [discriminate|]. split; [discriminate|].
    intros _ K Hne. exfalso. destruct DT as [-> | (ES & _ & _)].
    + apply (proj2 Ev) in K. discriminate K.
    + apply Hne. rewrite <- (proj1 K). unfold C. rewrite <- ES. unfold S. replace (2 * s) with (s + s) by ring. rewrite mul_add by exact G_on. reflexivity.
Qed.
Print Assumptions C47_pasta_verify_partial.
Example C47_key : w_on pallas (w_G pallas) /\ enc_ok (w_G pallas) (compressed_bytes pallas (w_G pallas)).
Proof. split; [exact G_on|]. right. split; [discriminate | reflexivity]. Qed.

(** The 65-byte form is decoded to infinity whatever it contains: one signature, r = 1 and
    s = n - 1, verifies under every such key for every message. *)
Definition universal_sig : bytes := z2be 32 1 ++ z2be 32 (w_n pallas - 1).
Lemma neg_G_ev : px pallas (w_mul pallas (qq - 1) (w_G pallas)) = 1 /\ Z.even (py pallas (w_mul pallas (qq - 1) (w_G pallas))) = true.
Proof.
  assert (E : w_mul pallas (qq - 1) (w_G pallas) = w_neg pallas (w_G pallas)).
  { rewrite <- (mul_modq (qq - 1)) by exact G_on. replace ((qq - 1) mod qq) with ((Z.opp 1) mod qq) by reflexivity.
    rewrite mul_modq, mul_neg, mul_1 by exact G_on. reflexivity. }
  rewrite E. split; [rewrite px_neg; reflexivity|]. rewrite <- Z.negb_odd, py_neg; [reflexivity|]. vm_compute. reflexivity.
Qed.
Lemma verify_inf json pub a msg m : Affine_FromBigEndianBytes pub = Some (Some a) -> aok a -> apt a = pinf pallas ->
  json msg = Some m -> msg_ok m -> pasta_Verify json pub msg universal_sig = Some true.
Proof.
  intros Ea Ha Pa Hj Hm.
  destruct (verify_eq json pub a msg m universal_sig Ea Ha) as (T & DT & EV).
  { rewrite Pa. exact on_inf. } { exact Hj. } { exact Hm. } { apply bytes_ok_app; apply z2be_ok. }
  { unfold universal_sig. rewrite app_length, !z2be_length. reflexivity. }
  unfold universal_sig in DT, EV. rewrite skipn_z2be, firstn_z2be in DT. rewrite firstn_z2be in EV.
  rewrite (be_z2be 1) in DT, EV by (split; [discriminate | reflexivity]).
  assert (Es : be2z (z2be 32 (qq - 1)) = qq - 1).
  { rewrite be2z_z2be. apply Z.mod_small. split; [discriminate | reflexivity]. }
  rewrite Es, Pa, mul_inf in DT. destruct neg_G_ev as [NX NY].
  assert (ET : T = w_mul pallas (qq - 1) (w_G pallas)).
  { assert (Ne : w_mul pallas (qq - 1) (w_G pallas) <> pinf pallas).
    { intros K. rewrite K in NX. discriminate NX. }
    destruct DT as [-> | (K & _)]; [apply add_inf_r|]. exfalso. apply Ne. exact K. }
  unfold universal_sig. rewrite EV, ET, NX, NY. reflexivity.
Qed.
Theorem C47_pasta_binding_refuted : forall json rnd B pub ID msg m, runs_pasta json rnd B -> mina_msg json msg m ->
  length pub = 65%nat /\ nth 0 pub 0 = 4 \/ pub = z2be 32 0 ++ z2be 32 0 ->
  Verify B pub ID msg universal_sig ECC_CURVE_PASTA = Ret SUCCESS.
Proof.
  intros json rnd B pub ID msg m HB [Hj Hm] Hp. rewrite api_verify, (proj1 HB). unfold pasta_pkg. cbn [sp_verify].
  destruct Hp as [[Lp Hp] | ->].
  - rewrite (verify_inf json pub affine0 msg m (dec65 pub Lp Hp) (proj1 affine0_ok) (proj2 affine0_ok) Hj Hm). reflexivity.
  - destruct (dec64_point (pinf pallas) on_inf) as (a & Ea & Ha & Pa).
    change (z2be 32 0 ++ z2be 32 0) with (point_bytes pallas (pinf pallas)). rewrite (verify_inf json _ a msg m Ea Ha Pa Hj Hm). reflexivity.
Qed.
Print Assumptions C47_pasta_binding_refuted.

(** so a key in that form does not have to be the key of the signer: the Schnorr equation of
    the point it writes down fails for some message, signature and key *)
(** ** C48 *)
Lemma api_baseadd B p s : length s = 32%nat -> Point_mulBaseG_add B p s ECC_CURVE_PASTA =
  match bk_pasta_baseadd B p s with Panic => Panic | Ret q => Ret (q, false) end.
Proof. intros L. unfold Point_mulBaseG_add. rewrite L. reflexivity. Qed.
Lemma AffineAdd_dec b1 b2 P Q : w_on pallas P -> w_on pallas Q ->
  (exists a, Affine_FromBigEndianBytes b1 = Some (Some a) /\ aok a /\ apt a = P) ->
  (exists a, Affine_FromBigEndianBytes b2 = Some (Some a) /\ aok a /\ apt a = Q) ->
  pasta_PointAdd b1 b2 = Some (Some (point_bytes pallas (w_add pallas P Q))).
Proof.
  intros O1 O2 (a & Ea & Ha & <-) (b & Eb & Hb & <-). unfold pasta_PointAdd, bindp. rewrite Ea, Eb.
  destruct (AffineAdd_ok a b Ha Hb O1 O2) as [A1 A2]. rewrite Affine_bytes, A2 by exact A1. reflexivity.
Qed.
Lemma key_of_Z z : 0 <= z < 2 ^ 254 -> pasta_key (z2be 32 z) /\ be2z (z2be 32 z) = z.
Proof.
  intros H. assert (E : be2z (z2be 32 z) = z).
  { rewrite be2z_z2be. apply Z.mod_small. rewrite pow256_32. assert (2 ^ 254 < 2 ^ 256) by reflexivity. lia. }
  split; [|exact E]. split; [apply z2be_ok|]. split; [apply z2be_length|]. rewrite E. apply H.
Qed.
Theorem C48_pasta_encodings_refuted : forall json rnd B, runs_pasta json rnd B ->
  let G := point_bytes pallas (w_G pallas) in
  exists p, Point_mulBaseG_add B (4 :: G) (z2be 32 1) ECC_CURVE_PASTA = Ret (Some p, false) /\
            Point_mulBaseG_add B G (z2be 32 1) ECC_CURVE_PASTA <> Ret (Some p, false).
Proof.
  intros json rnd B HB G. exists G. destruct HB as (_ & Hb & _).
  destruct (key_of_Z 1 ltac:(split; [discriminate | reflexivity])) as [(K1 & K2 & K3) E1].
  rewrite !api_baseadd, !Hb by apply z2be_length. unfold pasta_PointMulBaseGAdd.
  rewrite pasta_GenPublicKey_ok by assumption. rewrite E1, mul_1 by exact G_on. fold G. split.
  - rewrite (AffineAdd_dec _ _ (w_G pallas) (pinf pallas) G_on on_inf (dec64_point _ G_on)).
    + cbn [fuel_o]. rewrite add_inf_r. reflexivity.
    + exists affine0. split; [apply dec65; [cbn [length]; unfold G; rewrite point_bytes_length; reflexivity | reflexivity] | exact affine0_ok].
  - unfold G. rewrite (AffineAdd_dec _ _ (w_G pallas) (w_G pallas) G_on G_on (dec64_point _ G_on) (dec64_point _ G_on)). cbn [fuel_o].
    intros K. assert (K' : point_bytes pallas (w_add pallas (w_G pallas) (w_G pallas)) = point_bytes pallas (w_G pallas)) by congruence. clear K.
    unfold point_bytes in K'. apply (f_equal (fun l => be2z (firstn 32 l))) in K' as KX. apply (f_equal (fun l => be2z (skipn 32 l))) in K' as KY.
    rewrite !firstn_z2be, !be_z2be in KX by apply px_bound. rewrite !skipn_z2be, !be_z2be in KY by apply py_bound.
    assert (C : w_mul pallas 2 (w_G pallas) = w_mul pallas 1 (w_G pallas)).
    { replace 2 with (1 + 1) by reflexivity. rewrite mul_add, mul_1 by exact G_on.
      destruct (w_add pallas (w_G pallas) (w_G pallas)) as [|x y]; cbn [px py w_G] in KX, KY; [discriminate KX|].
      unfold w_G. apply (f_equal2 (fun a b => Aff (fp pp) a b)); apply fp_eq; assumption. }
    apply mul_inj in C; [discriminate C | exact G_on | discriminate].
Qed.
Print Assumptions C48_pasta_encodings_refuted.
(** Point_add and Point_mul do drop the prefix of a 65-byte argument *)
Theorem C48_pasta_encodings_partial : forall B p1 p2 b1 b2 s, length p1 = 64%nat -> length p2 = 64%nat ->
  Point_add B (b1 :: p1) (b2 :: p2) ECC_CURVE_PASTA = Point_add B p1 p2 ECC_CURVE_PASTA /\
  Point_add B p1 (b2 :: p2) ECC_CURVE_PASTA = Point_add B p1 p2 ECC_CURVE_PASTA /\
  Point_add B (b1 :: p1) p2 ECC_CURVE_PASTA = Point_add B p1 p2 ECC_CURVE_PASTA /\
  Point_mul B (b1 :: p1) s ECC_CURVE_PASTA = Point_mul B p1 s ECC_CURVE_PASTA.
Proof.
  intros B p1 p2 b1 b2 s L1 L2.
  assert (A : forall b p, length p = 64%nat -> point_arg B (b :: p) ECC_CURVE_PASTA = point_arg B p ECC_CURVE_PASTA).
  { intros b p L. unfold point_arg. cbn [length]. rewrite L. reflexivity. }
  unfold Point_add, Point_mul. rewrite !A by assumption. repeat split; reflexivity.
Qed.
Print Assumptions C48_pasta_encodings_partial.
Example C48_G : length (point_bytes pallas (w_G pallas)) = 64%nat.
Proof. apply point_bytes_length. Qed.


Lemma nth63_pasta P : nth 63 (point_bytes pallas P) 0 mod 2 = py pallas P mod 2.
Proof.
  unfold point_bytes. rewrite app_nth2; rewrite z2be_length; [|clear; lia].
  pose proof (py_bound P) as Hy. rewrite ProofECDSA.nth_z2be by (first [apply Hy | clear; lia]).
  change (256 ^ Z.of_nat (32 - 1 - (63 - 32))) with 1. rewrite Z.div_1_r.
  change 256 with (2 * 128). rewrite Z.rem_mul_r by lia.
  rewrite Z.mul_comm, Z.mod_add by lia. apply Zmod_mod.
Qed.
Lemma compress_pasta P : PointCompress (Some (point_bytes pallas P)) ECC_CURVE_PASTA = Some (compressed_bytes pallas P).
Proof.
  unfold PointCompress. rewrite point_bytes_length. cbn [Nat.eqb andb negb ECC_CURVE_PASTA].
  replace (negb (ECC_CURVE_PASTA =? ECC_CURVE_SECP256K1) && negb (ECC_CURVE_PASTA =? ECC_CURVE_SECP256R1) &&
    negb (ECC_CURVE_PASTA =? ECC_CURVE_SM2_STANDARD) && negb (ECC_CURVE_PASTA =? ECC_CURVE_PASTA)) with false by reflexivity.
  rewrite point_bytes_length, nth63_pasta. cbn [Nat.eqb negb]. unfold compressed_bytes.
  replace (firstn 32 (point_bytes pallas P)) with (z2be 32 (px pallas P)) by (unfold point_bytes; rewrite firstn_z2be; reflexivity).
  pose proof (Z.mod_pos_bound (py pallas P) 2 eq_refl) as Bz. revert Bz. generalize (py pallas P mod 2). intros z Bz.
  assert (D : z = 0 \/ z = 1) by (clear - Bz; lia). destruct D as [-> | ->]; reflexivity.
Qed.

(** ** C70: point operations *)
Lemma arg_ok json rnd B P b : runs_pasta json rnd B -> w_on pallas P ->
  enc_ok P b \/ (exists c, b = c :: point_bytes pallas P) ->
  point_arg B b ECC_CURVE_PASTA = Ret (Some (point_bytes pallas P)).
Proof.
  intros HB OP He. unfold point_arg. destruct He as [[-> | [N ->]] | [c ->]].
  - rewrite point_bytes_length. reflexivity.
  - assert (L : length (compressed_bytes pallas P) = 33%nat) by (unfold compressed_bytes; cbn [length]; rewrite z2be_length; reflexivity).
    rewrite L. cbn [Nat.eqb]. unfold PointDecompress. rewrite L. cbn [Nat.eqb negb].
    replace (ECC_CURVE_PASTA =? ECC_CURVE_SECP256K1) with false by reflexivity. replace (ECC_CURVE_PASTA =? ECC_CURVE_SECP256R1) with false by reflexivity.
    replace (ECC_CURVE_PASTA =? ECC_CURVE_SM2_STANDARD) with false by reflexivity. rewrite Z.eqb_refl.
    destruct HB as (_ & _ & _ & _ & Hd). rewrite Hd. unfold pasta_PointDecompress, bindp.
    destruct (dec33_point P OP N) as (a & Ea & Ha & Pa). rewrite Ea. cbn [fuel_o skipn]. rewrite Affine_bytes, Pa by exact Ha. reflexivity.
  - cbn [length]. rewrite point_bytes_length. reflexivity.
Qed.
(** Every encoding of P accepted by Point_add and Point_mul. *)
Definition pasta_enc (P : pt pallas) (b : bytes) : Prop := enc_ok P b \/ (exists c, b = c :: point_bytes pallas P).
Theorem C70_pasta_points : forall json rnd B P Q p q k, runs_pasta json rnd B ->
  w_on pallas P -> w_on pallas Q -> pasta_enc P p -> pasta_enc Q q -> bytes_ok k -> length k = 32%nat ->
  Point_add B p q ECC_CURVE_PASTA = Ret (Some (point_bytes pallas (w_add pallas P Q)), SUCCESS) /\
  Point_mul B p k ECC_CURVE_PASTA = Ret (Some (point_bytes pallas (w_mul pallas (be2z k) P)), SUCCESS) /\
  (be2z k < 2 ^ 254 -> Point_mulBaseG B k ECC_CURVE_PASTA = Ret (Some (compressed_bytes pallas (w_mul pallas (be2z k) (w_G pallas))))) /\
  (be2z k < 2 ^ 254 -> enc_ok P p -> Point_mulBaseG_add B p k ECC_CURVE_PASTA =
     Ret (Some (point_bytes pallas (w_add pallas (w_mul pallas (be2z k) (w_G pallas)) P)), false)).
Proof.
  intros json rnd B P Q p q k HB OP OQ Hp Hq Hk Lk.
  pose proof HB as (Hg & Hba & Hadd & Hmul & _). split; [|split; [|split]].
  - unfold Point_add. replace (ECC_CURVE_PASTA =? ECC_CURVE_ED25519) with false by reflexivity.
    rewrite (arg_ok json rnd B P p HB OP Hp), (arg_ok json rnd B Q q HB OQ Hq).
    replace (ECC_CURVE_PASTA =? ECC_CURVE_SECP256K1) with false by reflexivity. replace (ECC_CURVE_PASTA =? ECC_CURVE_SECP256R1) with false by reflexivity.
    replace (ECC_CURVE_PASTA =? ECC_CURVE_SM2_STANDARD) with false by reflexivity. rewrite Z.eqb_refl, Hadd.
    rewrite (AffineAdd_dec _ _ P Q OP OQ (dec64_point P OP) (dec64_point Q OQ)). reflexivity.
  - unfold Point_mul. replace (ECC_CURVE_PASTA =? ECC_CURVE_ED25519) with false by reflexivity.
    rewrite (arg_ok json rnd B P p HB OP Hp), Lk. cbn [Nat.eqb negb].
    replace (ECC_CURVE_PASTA =? ECC_CURVE_SECP256K1) with false by reflexivity. replace (ECC_CURVE_PASTA =? ECC_CURVE_SECP256R1) with false by reflexivity.
    replace (ECC_CURVE_PASTA =? ECC_CURVE_SM2_STANDARD) with false by reflexivity. rewrite Z.eqb_refl, Hmul.
    unfold pasta_PointMul. rewrite Lk. cbn [Nat.eqb negb]. destruct (dec64_point P OP) as (a & Ea & Ha & Pa). unfold bindp. rewrite Ea.
    destruct (be_to_fq k Hk Lk) as [K1 K2]. destruct (AffineScalarMul_ok _ a K1 Ha) as [M1 M2]; [rewrite Pa; exact OP|].
    rewrite Affine_bytes by exact M1. rewrite M2, K2, Pa, fval_of, mul_modq by exact OP. reflexivity.
  - intros Bk. unfold Point_mulBaseG. rewrite Lk. cbn [Nat.eqb negb].
    replace (ECC_CURVE_PASTA =? ECC_CURVE_SECP256K1) with false by reflexivity. replace (ECC_CURVE_PASTA =? ECC_CURVE_SECP256R1) with false by reflexivity.
    replace (ECC_CURVE_PASTA =? ECC_CURVE_SM2_STANDARD) with false by reflexivity. replace (ECC_CURVE_PASTA =? ECC_CURVE_ED25519) with false by reflexivity.
    replace (ECC_CURVE_PASTA =? ECC_CURVE_BLS_NUL) with false by reflexivity. replace (ECC_CURVE_PASTA =? ECC_CURVE_BLS_AUG) with false by reflexivity.
    rewrite Z.eqb_refl. cbn [orb]. rewrite Hg. unfold pasta_pkg. cbn [sp_genpub]. rewrite pasta_GenPublicKey_ok by assumption. cbn [ok_or_nil_o ok_or_nil]. rewrite compress_pasta. reflexivity.
  - intros Bk He. rewrite api_baseadd, Hba by exact Lk. unfold pasta_PointMulBaseGAdd. rewrite pasta_GenPublicKey_ok by assumption.
    assert (OK : w_on pallas (w_mul pallas (be2z k) (w_G pallas))) by (apply mul_on; exact G_on).
    rewrite (AffineAdd_dec _ _ _ P OK OP (dec64_point _ OK) (dec_ok P p OP He)). reflexivity.
Qed.
Print Assumptions C70_pasta_points.

(** ** C49: decompression *)
Lemma api_decompress json rnd B b : runs_pasta json rnd B -> length b = 33%nat ->
  PointDecompress B b ECC_CURVE_PASTA = fuel_o (pasta_PointDecompress b).
Proof.
  intros (_ & _ & _ & _ & Hd) L. unfold PointDecompress. rewrite L. cbn [Nat.eqb negb].
  replace (ECC_CURVE_PASTA =? ECC_CURVE_SECP256K1) with false by reflexivity. replace (ECC_CURVE_PASTA =? ECC_CURVE_SECP256R1) with false by reflexivity.
  replace (ECC_CURVE_PASTA =? ECC_CURVE_SM2_STANDARD) with false by reflexivity. rewrite Z.eqb_refl, Hd. reflexivity.
Qed.
(** A 33-byte string is always answered with a "point": on the curve with y odd exactly for
    prefix 03 (any other prefix counts as 02) when x^3 + 5 is a square, and otherwise (x, 0),
    which is not on the curve.  x is taken modulo p. *)
Theorem C49_pasta_decompress_partial : forall json rnd B t xb, runs_pasta json rnd B -> bytes_ok (t :: xb) -> length xb = 32%nat ->
  exists x y, 0 <= x < w_p pallas /\ 0 <= y < w_p pallas /\ x = be2z xb mod w_p pallas /\
  PointDecompress B (t :: xb) ECC_CURVE_PASTA = Ret (Some (4 :: z2be 32 x ++ z2be 32 y)) /\
  ((y * y) mod w_p pallas = (x * x * x + 5) mod w_p pallas /\ (y <> 0 -> (Z.odd y = true <-> t = 3)) \/
   y = 0 /\ forall y', (y' * y') mod w_p pallas <> (x * x * x + 5) mod w_p pallas).
Proof.
  intros json rnd B t xb HB Hb Hl. rewrite (api_decompress json rnd B _ HB) by (cbn [length]; rewrite Hl; reflexivity).
  unfold pasta_PointDecompress, bindp.
  assert (On : forall x y : fp pp, w_on pallas (Aff _ x y) <-> (fval y * fval y) mod pp = (fval x * fval x * fval x + 5) mod pp).
  { intros x y. unfold w_on. cbn [on_curve]. rewrite Fa. change (w_b pallas) with 5.
    assert (E : fp_add (fp_add (fp_mul (fp_mul x x) x) (fp_mul (fp_of pp 0) x)) (fp_of pp 5) = fp_of pp (fval x * fval x * fval x + 5)).
    { rewrite fp_of_add, !fp_of_mul, !fp_of_val. ring. }
    assert (E2 : fp_mul y y = fp_of pp (fval y * fval y)) by (rewrite fp_of_mul, fp_of_val; reflexivity).
    rewrite E, E2. split; intros K; [apply fp_of_eq in K; exact K | apply fp_of_eq; exact K]. }
  destruct (dec33 (t :: xb) Hb) as [(a & E & A & X & O & Po) | (a & E & A & X & Y & Bad)]; [cbn [length]; rewrite Hl; reflexivity | |];
    cbn [skipn nth] in *; rewrite E; exists (fval (fe (aX a))), (fval (fe (aY a))); cbn [fuel_o];
    (split; [apply fval_bound; reflexivity|]); (split; [apply fval_bound; reflexivity|]); (split; [rewrite X; apply fval_of|]);
    (split; [destruct A as [A1 A2]; unfold Affine_ToBigEndianBytes; rewrite !field_to_be by assumption; reflexivity|]).
  - left. apply On in O. split; [exact O|]. intros N. rewrite Po; [rewrite Z.eqb_eq; tauto|]. intros Z0. apply N. rewrite Z0. reflexivity.
  - right. split; [rewrite Y; reflexivity|]. intros y' K. apply (Bad (fp_of pp y')). apply On. rewrite fval_of.
    rewrite <- Zmult_mod. exact K.
Qed.
Print Assumptions C49_pasta_decompress_partial.
(** 5 is not a square modulo p *)
Lemma five_pow : (5 ^ ((pp - 1) / 2)) mod pp = pp - 1.
Proof.
  refine (c_powmod_spec ctx_pallasp ctx_pallasp_ok 5 (Z.to_pos ((pp - 1) / 2)) (pp - 1) _). vm_cast_no_check (@eq_refl (option Z) (Some (pp - 1))).
Qed.
Lemma five_nonsquare y : (y * y) mod pp <> 5 mod pp.
Proof.
  intros K. assert (K2 : fp_mul (fp_of pp y) (fp_of pp y) = fp_of pp 5) by (rewrite <- fp_of_mul; apply fp_of_eq; exact K).
  assert (N : fp_of pp y <> fp_of pp 0).
  { intros E. rewrite E in K2. assert (C : fp_of pp 0 = fp_of pp 5) by (rewrite <- K2; ring). apply fp_of_eq in C. discriminate C. }
  pose proof (fpow_fermat _ N) as Fm. replace (pp - 1) with (2 * ((pp - 1) / 2)) in Fm by reflexivity.
  rewrite <- fpow_pow in Fm by (apply Z.leb_le; reflexivity). rewrite fpow_2, K2 in Fm. unfold fpow in Fm.
  replace (fval (fp_of pp 5)) with 5 in Fm by reflexivity. apply fp_of_eq in Fm. rewrite five_pow in Fm. discriminate Fm.
Qed.
Theorem C49_pasta_decompress_refuted : forall json rnd B, runs_pasta json rnd B ->
  (** x = 0 is not the abscissa of a curve point, and is answered with (0, 0) *)
  (forall y, (y * y) mod w_p pallas <> (0 * 0 * 0 + 5) mod w_p pallas) /\
  PointDecompress B (2 :: z2be 32 0) ECC_CURVE_PASTA = Ret (Some (4 :: z2be 32 0 ++ z2be 32 0)) /\
  (** no prefix is refused *)
  (forall t xb, bytes_ok (t :: xb) -> length xb = 32%nat -> exists p, PointDecompress B (t :: xb) ECC_CURVE_PASTA = Ret (Some p)).
Proof.
  intros json rnd B HB. split; [exact five_nonsquare|]. split.
  - destruct (C49_pasta_decompress_partial json rnd B 2 (z2be 32 0) HB) as (x & y & _ & _ & Ex & -> & D).
    { constructor; [unfold byte_ok; lia | apply z2be_ok]. } { apply z2be_length. }
    rewrite be2z_z2be in Ex. change ((0 mod 256 ^ Z.of_nat 32) mod pp) with 0 in Ex. subst x. destruct D as [[D _] | [-> _]]; [|reflexivity].
    exfalso. exact (five_nonsquare y D).
  - intros t xb Hb Hl. destruct (C49_pasta_decompress_partial json rnd B t xb HB Hb Hl) as (x & y & _ & _ & _ & E & _). eexists. exact E.
Qed.
Print Assumptions C49_pasta_decompress_refuted.
Theorem C49_pasta_compress_roundtrip : forall json rnd B P, runs_pasta json rnd B -> w_on pallas P -> P <> pinf pallas ->
  PointCompress (Some (point_bytes pallas P)) ECC_CURVE_PASTA = Some (compressed_bytes pallas P) /\
  PointDecompress B (compressed_bytes pallas P) ECC_CURVE_PASTA = Ret (Some (4 :: point_bytes pallas P)).
Proof.
  intros json rnd B P HB OP N. split; [apply compress_pasta|].
  rewrite (api_decompress json rnd B _ HB) by (unfold compressed_bytes; cbn [length]; rewrite z2be_length; reflexivity).
  unfold pasta_PointDecompress, bindp. destruct (dec33_point P OP N) as (a & Ea & Ha & Pa). rewrite Ea, Affine_bytes, Pa by exact Ha. reflexivity.
Qed.
Print Assumptions C49_pasta_compress_roundtrip.

(** ** C50 *)
Theorem C50_pasta_negate_refuted :
  (forall a, aok a -> w_on pallas (apt a) -> AffineNegate a = a) /\
  aok AffineOne /\ apt AffineOne = w_G pallas /\ apt (AffineNegate AffineOne) <> w_neg pallas (w_G pallas).
Proof.
  split; [exact AffineNegate_same|]. split; [exact AffineOne_ok|]. split; [exact apt_G|].
  rewrite AffineNegate_same; [|exact AffineOne_ok | rewrite apt_G; exact G_on]. rewrite apt_G. intros K.
  rewrite <- (mul_1 (w_G pallas) G_on) in K. rewrite <- mul_neg in K by exact G_on. apply mul_inj in K; [discriminate K | exact G_on | discriminate].
Qed.
Print Assumptions C50_pasta_negate_refuted.

(** ** C51: Poseidon *)
(** Reduced field elements, as FpToMontgomery delivers them (a Mina message read from JSON can hold
    others, which are outside this theorem). *)
Theorem C51_poseidon : forall iv l, Forall okp iv -> length iv = 3%nat -> Forall okp l ->
  (forall l1 l2, l = l1 ++ l2 -> PoseidonUpdate (PoseidonUpdate (iv, 0%nat) l1) l2 = PoseidonUpdate (iv, 0%nat) l) /\
  PoseidonDigest (PoseidonUpdate (iv, 0%nat) l) = z2be 32 (fval (poseidon (w_p pallas) mina_rks mina_mds (map fe iv) (map fe l))).
Proof.
  intros iv l Hi Li Hl. split; [|apply PoseidonDigest_ok; assumption].
  intros l1 l2 ->. unfold PoseidonUpdate. symmetry. apply fold_left_app.
Qed.
Print Assumptions C51_poseidon.
(** The shape of the parameters: 63 rounds (and a last addition), a 3 x 3 matrix with non-zero entries. *)
Example C51_parameters : length mina_rks = 64%nat /\ Forall (fun k => length k = 3%nat) mina_rks /\
  length mina_mds = 3%nat /\ Forall (fun k => length k = 3%nat) mina_mds.
Proof.
  assert (A : forall l : list (list limbs), forallb (fun r => Nat.eqb (length r) 3) l = true -> Forall (fun k => length k = 3%nat) (map (map fe) l)).
  { intros l H. rewrite forallb_forall in H. apply Forall_forall. intros k Hk. apply in_map_iff in Hk. destruct Hk as (r & <- & Hr).
    rewrite map_length. apply Nat.eqb_eq, H, Hr. }
  split; [unfold mina_rks; rewrite map_length; reflexivity|]. split; [apply A; reflexivity|].
  split; [unfold mina_mds; rewrite map_length; reflexivity|]. apply A; reflexivity.
Qed.

(** ** C71: no PASTA function crashes *)
Lemma Affine_total b : bytes_ok b -> exists o, Affine_FromBigEndianBytes b = Some o.
Proof.
  intros Hb. destruct (Nat.eq_dec (length b) 33) as [L|N33].
  { destruct (dec33 b Hb L) as [(a & E & _) | (a & E & _)]; eexists; exact E. }
  destruct (Nat.eq_dec (length b) 64) as [L|N64]. { destruct (dec64 b Hb L) as (a & E & _). eexists; exact E. }
  unfold Affine_FromBigEndianBytes. apply Nat.eqb_neq in N33, N64. rewrite N33, N64.
  destruct (Nat.eqb (length b) 65); cbn [orb negb]; [|eexists; reflexivity].
  destruct (nth 0 b 0 =? 4); eexists; reflexivity.
Qed.
Lemma arg_total json rnd B p : runs_pasta json rnd B -> bytes_ok p ->
  point_arg B p ECC_CURVE_PASTA = Ret None \/ exists p', point_arg B p ECC_CURVE_PASTA = Ret (Some p') /\ bytes_ok p'.
Proof.
  intros HB Hb. unfold point_arg. destruct (Nat.eqb (length p) 33) eqn:E33.
  - apply Nat.eqb_eq in E33. rewrite (api_decompress json rnd B p HB E33). unfold pasta_PointDecompress, bindp.
    assert (D : exists a, Affine_FromBigEndianBytes p = Some (Some a) /\ aok a) by
      (destruct (dec33 p Hb E33) as [(a & E & A & _) | (a & E & A & _)]; exists a; split; assumption).
    destruct D as (a & E & A). rewrite E. cbn [fuel_o skipn]. right. eexists. split; [reflexivity|].
    rewrite Affine_bytes by exact A. apply point_bytes_ok.
  - destruct (Nat.eqb (length p) 65); [right; eexists; split; [reflexivity | apply bytes_ok_skipn; exact Hb]|].
    destruct (Nat.eqb (length p) 64); cbn [negb]; [right; eexists; split; [reflexivity | exact Hb] | left; reflexivity].
Qed.
Lemma add_total p q : bytes_ok p -> bytes_ok q -> pasta_PointAdd p q <> None.
Proof.
  intros Hp Hq. unfold pasta_PointAdd, bindp. destruct (Affine_total p Hp) as [o1 ->], (Affine_total q Hq) as [o2 ->].
  destruct o1; [destruct o2|]; discriminate.
Qed.
Lemma fuel_np {A} (x : option A) : x <> None -> exists a, fuel_o x = Ret a.
Proof. destruct x; [eexists; reflexivity | congruence]. Qed.
Theorem C71_pasta_total : forall json rnd B p q k s ID msg, runs_pasta json rnd B -> bytes_ok p -> bytes_ok q -> bytes_ok k ->
  Verify B p ID msg s ECC_CURVE_PASTA <> Panic /\ Point_add B p q ECC_CURVE_PASTA <> Panic /\
  Point_mul B p k ECC_CURVE_PASTA <> Panic /\ Point_mulBaseG_add B p k ECC_CURVE_PASTA <> Panic /\
  PointDecompress B p ECC_CURVE_PASTA <> Panic /\ GenPubkey B k ECC_CURVE_PASTA <> Panic /\
  Signature B k ID msg ECC_CURVE_PASTA <> Some Panic /\ Point_mulBaseG B k ECC_CURVE_PASTA <> Panic.
Proof.
  intros json rnd B p q k s ID msg HB Hp Hq Hk. pose proof HB as (Hg & Hba & Hadd & Hmul & Hdec).
  split; [|split; [|split; [|split; [|split; [|split; [|split]]]]]].
  - rewrite api_verify, Hg. unfold pasta_pkg. cbn [sp_verify]. destruct (fuel_np (pasta_Verify json p msg s)) as [v ->]; [|destruct v; discriminate].
    unfold pasta_Verify, MessageHash. destruct (negb (Nat.eqb (length s) 64)); [discriminate|].
    destruct (Affine_total p Hp) as [o ->]. destruct o; [|discriminate]. destruct (json msg); discriminate.
  - unfold Point_add. replace (ECC_CURVE_PASTA =? ECC_CURVE_ED25519) with false by reflexivity.
    destruct (arg_total json rnd B p HB Hp) as [-> | (p' & -> & Hp')]; [discriminate|].
    destruct (arg_total json rnd B q HB Hq) as [-> | (q' & -> & Hq')]; [discriminate|].
    replace (ECC_CURVE_PASTA =? ECC_CURVE_SECP256K1) with false by reflexivity. replace (ECC_CURVE_PASTA =? ECC_CURVE_SECP256R1) with false by reflexivity.
    replace (ECC_CURVE_PASTA =? ECC_CURVE_SM2_STANDARD) with false by reflexivity. rewrite Z.eqb_refl, Hadd.
    destruct (fuel_np _ (add_total _ _ Hp' Hq')) as [v ->]. discriminate.
  - unfold Point_mul. replace (ECC_CURVE_PASTA =? ECC_CURVE_ED25519) with false by reflexivity.
    destruct (arg_total json rnd B p HB Hp) as [-> | (p' & -> & Hp')]; [discriminate|].
    destruct (negb (Nat.eqb (length k) 32)) eqn:Lk; [discriminate|].
    replace (ECC_CURVE_PASTA =? ECC_CURVE_SECP256K1) with false by reflexivity. replace (ECC_CURVE_PASTA =? ECC_CURVE_SECP256R1) with false by reflexivity.
    replace (ECC_CURVE_PASTA =? ECC_CURVE_SM2_STANDARD) with false by reflexivity. rewrite Z.eqb_refl, Hmul.
    destruct (fuel_np (pasta_PointMul p' k)) as [v ->]; [|discriminate]. unfold pasta_PointMul, bindp. rewrite Lk.
    destruct (Affine_total p' Hp') as [o ->]. destruct o; discriminate.
  - unfold Point_mulBaseG_add. destruct (negb (Nat.eqb (length k) 32)) eqn:Lk; [discriminate|].
    replace (ECC_CURVE_PASTA =? ECC_CURVE_SECP256K1) with false by reflexivity. replace (ECC_CURVE_PASTA =? ECC_CURVE_SECP256R1) with false by reflexivity.
    replace (ECC_CURVE_PASTA =? ECC_CURVE_SM2_STANDARD) with false by reflexivity. replace (ECC_CURVE_PASTA =? ECC_CURVE_ED25519) with false by reflexivity.
    replace (ECC_CURVE_PASTA =? ECC_CURVE_BLS_NUL) with false by reflexivity. replace (ECC_CURVE_PASTA =? ECC_CURVE_BLS_AUG) with false by reflexivity.
    rewrite Z.eqb_refl. cbn [orb]. rewrite Hba. destruct (fuel_np (pasta_PointMulBaseGAdd p k)) as [v ->]; [|discriminate].
    unfold pasta_PointMulBaseGAdd. destruct (pasta_GenPublicKey k) as [g|] eqn:Eg; [|discriminate].
    apply add_total; [|exact Hp]. unfold pasta_GenPublicKey in Eg. destruct (valid_private k) eqn:V; [|discriminate].
    apply valid_private_iff in V; [|exact Hk]. fold (pasta_GenPublicKey k) in Eg.
    assert (Eg2 : pasta_GenPublicKey k = Some g) by (unfold pasta_GenPublicKey; rewrite (proj2 (valid_private_iff k Hk) V); exact Eg).
    rewrite pasta_GenPublicKey_ok in Eg2 by (try exact Hk; apply V). apply ProofW64.some_inj in Eg2. subst g. apply point_bytes_ok.
  - unfold PointDecompress. destruct (negb (Nat.eqb (length p) 33)); [discriminate|].
    replace (ECC_CURVE_PASTA =? ECC_CURVE_SECP256K1) with false by reflexivity. replace (ECC_CURVE_PASTA =? ECC_CURVE_SECP256R1) with false by reflexivity.
    replace (ECC_CURVE_PASTA =? ECC_CURVE_SM2_STANDARD) with false by reflexivity. rewrite Z.eqb_refl, Hdec.
    destruct (fuel_np (pasta_PointDecompress p)) as [v ->]; [|discriminate]. unfold pasta_PointDecompress, bindp.
    destruct (Affine_total p Hp) as [o ->]. destruct o; discriminate.
  - rewrite api_gen, Hg. unfold pasta_pkg. cbn [sp_genpub]. destruct (pasta_GenPublicKey k); discriminate.
  - rewrite api_sign, Hg. unfold pasta_pkg. cbn [sp_sign]. destruct (pasta_Sign json rnd (bk_fuel B) k msg) as [[x|]|]; discriminate.
  - unfold Point_mulBaseG. destruct (negb (Nat.eqb (length k) 32)) eqn:Lk; [discriminate|].
    replace (ECC_CURVE_PASTA =? ECC_CURVE_SECP256K1) with false by reflexivity. replace (ECC_CURVE_PASTA =? ECC_CURVE_SECP256R1) with false by reflexivity.
    replace (ECC_CURVE_PASTA =? ECC_CURVE_SM2_STANDARD) with false by reflexivity. replace (ECC_CURVE_PASTA =? ECC_CURVE_ED25519) with false by reflexivity.
    replace (ECC_CURVE_PASTA =? ECC_CURVE_BLS_NUL) with false by reflexivity. replace (ECC_CURVE_PASTA =? ECC_CURVE_BLS_AUG) with false by reflexivity.
    rewrite Z.eqb_refl. cbn [orb]. rewrite Hg. unfold pasta_pkg. cbn [sp_genpub]. destruct (pasta_GenPublicKey k); cbn [ok_or_nil_o]; discriminate.
Qed.
Print Assumptions C71_pasta_total.
