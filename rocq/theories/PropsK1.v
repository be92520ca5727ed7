(** Properties C01-C15 and C56: secp256k1 through the exported functions.
    [B] is any implementation of the other curves and of the random generator. *)
Require Import ZArith List Lia Znumtheory Bool.
Require Import Verif.Base Verif.EC Verif.Curves Verif.SpecECDSA Verif.ModelK1 Verif.ModelECDSA Verif.ModelApi
  Verif.ProofECDSA Verif.ProofECDSA2 Verif.ProofECDSA3 Verif.ProofK1Api Verif.ProofK1Wit.
Import ListNotations.
Open Scope Z_scope.

Local Notation N := (w_n secp256k1).
Local Notation G := (w_G secp256k1).
Local Notation O := (pinf secp256k1).
Local Notation "k ** P" := (w_mul secp256k1 k P) (at level 39).
Local Notation "P ++' Q" := (w_add secp256k1 P Q) (at level 60).
Local Notation on_curve := (w_on secp256k1).
Local Notation enc := (point_bytes secp256k1).

(** A random source whose blocks are all zero, so that the nonce is 1; the
    other curves are irrelevant here. *)
Definition demo_B : backends :=
  let pkg := {| sp_genpub := fun _ => Panic; sp_sign := fun _ _ => None; sp_verify := fun _ _ _ => Panic |} in
  {| bk_drbg := zero_blocks; bk_entropy := Some []; bk_fuel := 1;
     bk_rand := (fun _ => None); bk_r1 := k1_curve;
     bk_ed_normal := pkg; bk_ed := pkg; bk_x := pkg; bk_sha256 := pkg;
     bk_ed_baseadd := fun p _ => (p, false); bk_ed_add := fun p _ => (p, false);
     bk_bls := pkg; bk_bls_baseadd := fun _ _ => Panic; bk_bls_aggregate := fun _ => Panic;
     bk_pasta := pkg; bk_pasta_baseadd := fun _ _ => Panic; bk_pasta_add := fun _ _ => Panic;
     bk_pasta_mul := fun _ _ => Panic; bk_pasta_decompress := fun _ => Panic |}.

(** The signature of hash e (one byte) under key 1 and nonce 1. *)
Definition demo_sig (e : Z) : bytes := z2be 32 k1_Gx ++ z2be 32 (k1_Gx + e).
Lemma demo_signature e ID : 0 <= e < 256 ->
  Signature demo_B key1 ID (hash_of e) ECC_CURVE_SECP256K1 = Some (Ret (Some (demo_sig e), 0, SUCCESS)).
Proof.
  intros He. change (Signature demo_B key1 ID (hash_of e) ECC_CURVE_SECP256K1) with
    (sign_ret (no_panic (ecdsa_sign zero_blocks k1_curve (Some []) 1 key1 (hash_of e)))).
  rewrite k1_sign_example by exact He. reflexivity.
Qed.
Lemma key1_ok : bytes_ok key1.
Proof. unfold key1. apply bytes_ok_app; [apply (z2be_ok 31 0)|]. constructor; [split; [discriminate|reflexivity]|constructor]. Qed.
Lemma demo_pub : GenPubkey demo_B key1 ECC_CURVE_SECP256K1 = Ret (Some (enc G), SUCCESS).
Proof. rewrite k1_genpub by exact key1_ok. reflexivity. Qed.

(** C01 *)
Theorem C01_k1_public_key : forall B prikey, bytes_ok prikey ->
  GenPubkey B prikey ECC_CURVE_SECP256K1 =
    if (length prikey =? 32)%nat && (0 <? be2z prikey) && (be2z prikey <? N)
    then Ret (Some (enc (be2z prikey ** G)), SUCCESS)
    else Ret (None, ECC_PRIKEY_ILLEGAL).
Proof. exact k1_genpub. Qed.
Print Assumptions C01_k1_public_key.
Example C01_example : bytes_ok key1 /\
  GenPubkey demo_B key1 ECC_CURVE_SECP256K1 = Ret (Some (enc G), SUCCESS).
Proof. split; [exact key1_ok|exact demo_pub]. Qed.

(** C02 *)
Theorem C02_k1_signatures_verify : forall B prikey ID ID' hash sig v pub, bytes_ok prikey ->
  Signature B prikey ID hash ECC_CURVE_SECP256K1 = Some (Ret (Some sig, v, SUCCESS)) ->
  GenPubkey B prikey ECC_CURVE_SECP256K1 = Ret (Some pub, SUCCESS) ->
  Verify B pub ID' hash sig ECC_CURVE_SECP256K1 = Ret SUCCESS.
Proof. exact k1_sign_verify. Qed.
Print Assumptions C02_k1_signatures_verify.
Example C02_example :
  Signature demo_B key1 None (hash_of 5) ECC_CURVE_SECP256K1 = Some (Ret (Some (demo_sig 5), 0, SUCCESS)) /\
  GenPubkey demo_B key1 ECC_CURVE_SECP256K1 = Ret (Some (enc G), SUCCESS) /\
  Verify demo_B (enc G) None (hash_of 5) (demo_sig 5) ECC_CURVE_SECP256K1 = Ret SUCCESS.
Proof.
  assert (S := demo_signature 5 None (conj (ltac:(discriminate) : 0 <= 5) eq_refl)).
  split; [exact S|]. split; [exact demo_pub|].
  exact (k1_sign_verify demo_B key1 None None _ _ _ _ key1_ok S demo_pub).
Qed.

(** A successful signing call implies that the public key exists. *)
Theorem C02_signing_key_has_public_key : forall B prikey ID hash sig v, bytes_ok prikey ->
  Signature B prikey ID hash ECC_CURVE_SECP256K1 = Some (Ret (Some sig, v, SUCCESS)) ->
  exists pub, GenPubkey B prikey ECC_CURVE_SECP256K1 = Ret (Some pub, SUCCESS).
Proof.
  intros B prikey ID hash sig v Hk H. destruct (k1_sign_good B _ _ _ _ _ Hk H) as (L & _ & Hd & _).
  exists (enc (be2z prikey ** G)). rewrite k1_genpub by exact Hk. rewrite L.
  replace (0 <? be2z prikey) with true by (symmetry; apply Z.ltb_lt; apply Hd).
  replace (be2z prikey <? N) with true by (symmetry; apply Z.ltb_lt; apply Hd). reflexivity.
Qed.

(** C03 *)
Theorem C03_k1_verify_is_ecdsa : forall B pub ID hash sig,
  length pub = 64%nat -> on_curve (point_of_bytes secp256k1 pub) ->
  (Verify B pub ID hash sig ECC_CURVE_SECP256K1 = Ret SUCCESS <->
   length sig = 64%nat /\ length hash = 32%nat /\
   ecdsa_valid secp256k1 (point_of_bytes secp256k1 pub) (be2z hash)
     (be2z (firstn 32 sig)) (be2z (skipn 32 sig))).
Proof. exact k1_verify_iff. Qed.
Print Assumptions C03_k1_verify_is_ecdsa.
Theorem C03_k1_verify_total : forall B pub ID hash sig,
  Verify B pub ID hash sig ECC_CURVE_SECP256K1 = Ret SUCCESS \/
  Verify B pub ID hash sig ECC_CURVE_SECP256K1 = Ret FAILURE.
Proof. intros. rewrite k1_verify_eq. destruct (ecdsa_verify _ _ _ _); auto. Qed.
Example C03_example : length (enc G) = 64%nat /\ on_curve (point_of_bytes secp256k1 (enc G)) /\
  ecdsa_valid secp256k1 (point_of_bytes secp256k1 (enc G)) (be2z (hash_of 5))
    (be2z (firstn 32 (demo_sig 5))) (be2z (skipn 32 (demo_sig 5))).
Proof.
  assert (L : length (enc G) = 64%nat) by reflexivity.
  assert (Ho : on_curve (point_of_bytes secp256k1 (enc G))).
  { unfold point_of_bytes. rewrite (point_bytes_x k1_curve secp256k1 k1_implements),
      (point_bytes_y k1_curve secp256k1 k1_implements).
    rewrite (paff_pxy secp256k1) by discriminate. apply (wv_Gon _ secp256k1_valid). }
  split; [exact L|]. split; [exact Ho|].
  apply (k1_verify_iff demo_B (enc G) None (hash_of 5) (demo_sig 5) L Ho).
  apply C02_example.
Qed.

(** C04 *)
Theorem C04_k1_signatures_canonical : forall B prikey ID hash sig v, bytes_ok prikey ->
  Signature B prikey ID hash ECC_CURVE_SECP256K1 = Some (Ret (Some sig, v, SUCCESS)) ->
  canonical_sig N sig v.
Proof. exact k1_sign_canonical. Qed.
Print Assumptions C04_k1_signatures_canonical.
Example C04_example : Signature demo_B key1 None (hash_of 5) ECC_CURVE_SECP256K1 = Some (Ret (Some (demo_sig 5), 0, SUCCESS)).
Proof. apply C02_example. Qed.

(** C05 *)
Theorem C05_k1_recovery : forall B prikey ID hash sig v, bytes_ok prikey -> bytes_ok hash ->
  Signature B prikey ID hash ECC_CURVE_SECP256K1 = Some (Ret (Some sig, v, SUCCESS)) ->
  be2z hash mod N <> 0 ->
  RecoverPubkey B (sig ++ [v]) hash ECC_CURVE_SECP256K1 = GenPubkey B prikey ECC_CURVE_SECP256K1.
Proof. exact k1_recover_signed. Qed.
Print Assumptions C05_k1_recovery.
Example C05_example :
  bytes_ok (hash_of 5) /\ be2z (hash_of 5) mod N <> 0 /\
  Signature demo_B key1 None (hash_of 5) ECC_CURVE_SECP256K1 = Some (Ret (Some (demo_sig 5), 0, SUCCESS)) /\
  RecoverPubkey demo_B (demo_sig 5 ++ [0]) (hash_of 5) ECC_CURVE_SECP256K1 = Ret (Some (enc G), SUCCESS).
Proof.
  assert (Ok : bytes_ok (hash_of 5)) by (unfold hash_of; apply bytes_ok_app; [apply (z2be_ok 31 0)|repeat constructor; discriminate]).
  assert (H0 : be2z (hash_of 5) mod N <> 0) by (vm_compute; discriminate).
  assert (S := demo_signature 5 None (conj (ltac:(discriminate) : 0 <= 5) eq_refl)).
  split; [exact Ok|]. split; [exact H0|]. split; [exact S|].
  rewrite (k1_recover_signed demo_B key1 None _ _ _ key1_ok Ok S H0). exact demo_pub.
Qed.

(** C06 *)
Theorem C06_k1_recovered_keys_verify : forall B sig hash ID pub,
  RecoverPubkey B sig hash ECC_CURVE_SECP256K1 = Ret (Some pub, SUCCESS) ->
  Verify B pub ID hash (firstn 64 sig) ECC_CURVE_SECP256K1 = Ret SUCCESS.
Proof. exact k1_recovered_verifies. Qed.
Print Assumptions C06_k1_recovered_keys_verify.
Example C06_example :
  RecoverPubkey demo_B (demo_sig 5 ++ [0]) (hash_of 5) ECC_CURVE_SECP256K1 = Ret (Some (enc G), SUCCESS).
Proof. apply C05_example. Qed.

(** C07: false as stated; true unless r is a multiple of the group order. *)
Theorem C07_recovery_never_crashes_refuted : exists sig hash, bytes_ok sig /\ bytes_ok hash /\
  forall B, RecoverPubkey B sig hash ECC_CURVE_SECP256K1 = Panic.
Proof.
  exists (repeat 0 32 ++ z2be 32 1 ++ [0]), (hash_of 5). split; [|split].
  - apply bytes_ok_app; [apply (z2be_ok 32 0)|]. apply bytes_ok_app; [apply z2be_ok|].
    constructor; [split; [discriminate|reflexivity]|constructor].
  - apply C05_example.
  - intros B. apply k1_recover_panics; reflexivity.
Qed.
Print Assumptions C07_recovery_never_crashes_refuted.
Theorem C07_k1_recovery_no_crash_partial : forall B sig hash,
  be2z (firstn 32 sig) mod N <> 0 ->
  RecoverPubkey B sig hash ECC_CURVE_SECP256K1 <> Panic.
Proof. exact k1_recover_no_panic. Qed.
Print Assumptions C07_k1_recovery_no_crash_partial.
Example C07_example : be2z (firstn 32 (demo_sig 5 ++ [0])) mod N <> 0.
Proof. vm_compute. discriminate. Qed.

(** C08: false; Signature signs the zero hash and recovery then fails. *)
Theorem C08_zero_hash_recovery_refuted :
  exists B prikey hash sig v, bytes_ok prikey /\ bytes_ok hash /\ be2z hash mod N = 0 /\
    Signature B prikey None hash ECC_CURVE_SECP256K1 = Some (Ret (Some sig, v, SUCCESS)) /\
    RecoverPubkey B (sig ++ [v]) hash ECC_CURVE_SECP256K1 = Ret (None, FAILURE).
Proof.
  exists demo_B, key1, (hash_of 0), (demo_sig 0), 0.
  split; [exact key1_ok|]. split; [apply (z2be_ok 32 0)|]. split; [reflexivity|]. split.
  - apply demo_signature. split; [discriminate|reflexivity].
  - unfold demo_sig. rewrite Z.add_0_r. exact (k1_zero_hash_fails demo_B).
Qed.
Print Assumptions C08_zero_hash_recovery_refuted.

(** C09 *)
Theorem C09_k1_compression_round_trip : forall B P, on_curve P -> P <> O ->
  exists cb, PointCompress (Some (enc P)) ECC_CURVE_SECP256K1 = Some cb /\
             PointCompress (Some (4 :: enc P)) ECC_CURVE_SECP256K1 = Some cb /\
             PointDecompress B cb ECC_CURVE_SECP256K1 = Ret (Some (4 :: enc P)).
Proof. exact k1_roundtrip. Qed.
Print Assumptions C09_k1_compression_round_trip.
Example C09_example : on_curve G /\ G <> O.
Proof. split; [apply (wv_Gon _ secp256k1_valid)|discriminate]. Qed.

(** C10: false as stated; what holds is soundness when x^3 + 7 is a square. *)
Theorem C10_decompression_on_curve_refuted : exists cb out, bytes_ok cb /\
  (forall B, PointDecompress B cb ECC_CURVE_SECP256K1 = Ret (Some (4 :: out))) /\
  ~ on_curve (point_of_bytes secp256k1 out).
Proof.
  exists (2 :: repeat 0 32), (repeat 0 64). split; [|split].
  - constructor; [split; [discriminate|reflexivity]|apply (z2be_ok 32 0)].
  - exact k1_decompress_zero.
  - exact k1_zero_off_curve.
Qed.
Print Assumptions C10_decompression_on_curve_refuted.
Theorem C10_k1_decompression_partial : forall B tag xs y,
  tag = 2 \/ tag = 3 -> bytes_ok xs -> length xs = 32%nat ->
  (y * y) mod w_p secp256k1 = (be2z xs * be2z xs * be2z xs + 7) mod w_p secp256k1 ->
  exists ys, PointDecompress B (tag :: xs) ECC_CURVE_SECP256K1 = Ret (Some (4 :: xs ++ ys)) /\
    length ys = 32%nat /\ on_curve (point_of_bytes secp256k1 (xs ++ ys)) /\ be2z ys mod 2 = tag - 2.
Proof. exact k1_decompress_sound. Qed.
Print Assumptions C10_k1_decompression_partial.
Example C10_example :
  (k1_Gy * k1_Gy) mod w_p secp256k1 =
  (be2z (z2be 32 k1_Gx) * be2z (z2be 32 k1_Gx) * be2z (z2be 32 k1_Gx) + 7) mod w_p secp256k1.
Proof. vm_compute. reflexivity. Qed.

(** C11 *)
Theorem C11_k1_point_add : forall B P Q bp bq,
  on_curve P -> on_curve Q -> P <> O -> Q <> O ->
  encodes secp256k1 P bp -> encodes secp256k1 Q bq ->
  (P ++' Q = O -> Point_add B bp bq ECC_CURVE_SECP256K1 = Ret (None, FAILURE)) /\
  (P ++' Q <> O -> Point_add B bp bq ECC_CURVE_SECP256K1 = Ret (Some (enc (P ++' Q)), SUCCESS)).
Proof. exact k1_point_add. Qed.
Print Assumptions C11_k1_point_add.
Example C11_example : on_curve G /\ G <> O /\ encodes secp256k1 G (compressed_bytes secp256k1 G) /\
  G ++' G <> O /\ G ++' w_neg secp256k1 G = O.
Proof.
  split; [apply (wv_Gon _ secp256k1_valid)|]. split; [discriminate|]. split; [right; right; reflexivity|]. split.
  - intros E. assert (H : 2 mod N = 0); [|discriminate].
    apply (mulG_inf secp256k1 secp256k1_valid). exact E.
  - change G with (1 ** G). rewrite (mulG_neg secp256k1 secp256k1_valid), (mulG_add secp256k1 secp256k1_valid).
    reflexivity.
Qed.

(** C12 *)
Theorem C12_k1_point_mul : forall B P bp k,
  on_curve P -> P <> O -> encodes secp256k1 P bp -> bytes_ok k -> length k = 32%nat ->
  (be2z k ** P = O -> Point_mul B bp k ECC_CURVE_SECP256K1 = Ret (None, FAILURE)) /\
  (be2z k ** P <> O -> Point_mul B bp k ECC_CURVE_SECP256K1 = Ret (Some (enc (be2z k ** P)), SUCCESS)).
Proof. exact k1_point_mul. Qed.
Print Assumptions C12_k1_point_mul.
Example C12_example : bytes_ok key1 /\ length key1 = 32%nat /\ be2z key1 ** G <> O /\
  bytes_ok (z2be 32 N) /\ be2z (z2be 32 N) ** G = O.
Proof.
  split; [exact key1_ok|]. split; [reflexivity|]. split; [discriminate|]. split; [apply z2be_ok|].
  apply (mulG_inf secp256k1 secp256k1_valid). reflexivity.
Qed.

(** C13 *)
Theorem C13_k1_mulBaseG_add : forall B P k, on_curve P -> bytes_ok k -> length k = 32%nat ->
  ((be2z k ** G) ++' P = O -> Point_mulBaseG_add B (enc P) k ECC_CURVE_SECP256K1 = Ret (None, true)) /\
  ((be2z k ** G) ++' P <> O ->
     Point_mulBaseG_add B (enc P) k ECC_CURVE_SECP256K1 = Ret (Some (enc ((be2z k ** G) ++' P)), false)).
Proof. exact k1_mulbaseg_add. Qed.
Print Assumptions C13_k1_mulBaseG_add.
Example C13_example : on_curve G /\ bytes_ok key1 /\ length key1 = 32%nat /\ (be2z key1 ** G) ++' G <> O.
Proof.
  split; [apply (wv_Gon _ secp256k1_valid)|]. split; [exact key1_ok|]. split; [reflexivity|].
  apply C11_example.
Qed.

(** C14 *)
Theorem C14_k1_homomorphic : forall B a b pub, bytes_ok a -> bytes_ok b -> length b = 32%nat ->
  GenPubkey B a ECC_CURVE_SECP256K1 = Ret (Some pub, SUCCESS) ->
  let s := (be2z a + be2z b) mod N in
  (s <> 0 -> exists p, Point_mulBaseG_add B pub b ECC_CURVE_SECP256K1 = Ret (Some p, false) /\
                       GenPubkey B (z2be 32 s) ECC_CURVE_SECP256K1 = Ret (Some p, SUCCESS)) /\
  (s = 0 -> Point_mulBaseG_add B pub b ECC_CURVE_SECP256K1 = Ret (None, true)).
Proof. exact k1_homomorphic. Qed.
Print Assumptions C14_k1_homomorphic.
Example C14_example : GenPubkey demo_B key1 ECC_CURVE_SECP256K1 = Ret (Some (enc G), SUCCESS) /\
  (be2z key1 + be2z key1) mod N <> 0.
Proof. split; [exact demo_pub|vm_compute; discriminate]. Qed.

(** C15: false; a 33-byte string with a wrong tag crashes Point_add and
    Point_mul, a short point crashes Point_mulBaseG_add. *)
Theorem C15_point_apis_refuted :
  (forall B, Point_add B (5 :: z2be 32 1) (5 :: z2be 32 1) ECC_CURVE_SECP256K1 = Panic) /\
  (forall B, Point_mul B (5 :: z2be 32 1) key1 ECC_CURVE_SECP256K1 = Panic) /\
  (forall B, Point_mulBaseG_add B [] key1 ECC_CURVE_SECP256K1 = Panic).
Proof. split; [|split]; intros B; reflexivity. Qed.
Print Assumptions C15_point_apis_refuted.
(** What does hold on secp256k1: no crash on 64-byte points, nor on 65-byte
    ones, nor on 33-byte ones with tag 02 or 03. *)
Lemma arg_shape B p : (length p = 33%nat -> nth 0 p 0 = 2 \/ nth 0 p 0 = 3) ->
  point_arg B p ECC_CURVE_SECP256K1 = Ret None \/
  exists q, point_arg B p ECC_CURVE_SECP256K1 = Ret (Some q) /\ (32 <= length q)%nat.
Proof.
  intros H. unfold point_arg. destruct (length p =? 33)%nat eqn:E1.
  - apply Nat.eqb_eq in E1. right. rewrite k1_pd by exact E1.
    destruct p as [|t xs]; [discriminate|]. cbn [nth] in H. injection E1 as E1.
    assert (Ht : t = 2 \/ t = 3) by (apply H; cbn [length]; rewrite E1; reflexivity).
    pose proof (decompress_total k1_curve secp256k1 k1_implements (fun x => x * x * x + k1_B) t xs Ht E1) as D.
    rewrite <- k1_decompress_eq in D. destruct (k1_decompress (t :: xs)) as [q|] eqn:ED; [|exfalso; apply D; reflexivity].
    exists (skipn 1 q). split; [reflexivity|].
    rewrite <- E1. unfold k1_decompress in ED. exact (decompress_len _ _ _ _ _ ED).
  - destruct (length p =? 65)%nat eqn:E2.
    + apply Nat.eqb_eq in E2. right. exists (skipn 1 p). split; [reflexivity|].
      rewrite skipn_length, E2. clear; lia.
    + destruct (length p =? 64)%nat eqn:E3; [|left; reflexivity].
      apply Nat.eqb_eq in E3. right. exists p. split; [reflexivity|]. rewrite E3. clear; lia.
Qed.
Theorem C15_k1_no_crash_partial : forall B p q k,
  (length p = 33%nat -> nth 0 p 0 = 2 \/ nth 0 p 0 = 3) ->
  (length q = 33%nat -> nth 0 q 0 = 2 \/ nth 0 q 0 = 3) ->
  Point_add B p q ECC_CURVE_SECP256K1 <> Panic /\
  Point_mul B p k ECC_CURVE_SECP256K1 <> Panic /\
  ((32 <= length p)%nat -> Point_mulBaseG_add B p k ECC_CURVE_SECP256K1 <> Panic) /\
  PointDecompress B p ECC_CURVE_SECP256K1 <> Panic.
Proof.
  intros B p q k Hp Hq.
  assert (LT : forall (x : bytes), (32 <= length x)%nat -> (length x <? 32)%nat = false)
    by (intros x Hx; apply Nat.ltb_ge; exact Hx).
  split; [|split; [|split]].
  - unfold Point_add. change (ECC_CURVE_SECP256K1 =? ECC_CURVE_ED25519) with false. cbv iota.
    destruct (arg_shape B p Hp) as [-> | (p' & -> & L1)]; [discriminate|].
    destruct (arg_shape B q Hq) as [-> | (q' & -> & L2)]; [discriminate|].
    rewrite Z.eqb_refl. unfold point_add. rewrite !LT by assumption. cbn [orb].
    destruct (e_Add _ _ _ _ _) as [x y]. destruct (_ && _); discriminate.
  - unfold Point_mul. change (ECC_CURVE_SECP256K1 =? ECC_CURVE_ED25519) with false. cbv iota.
    destruct (arg_shape B p Hp) as [-> | (p' & -> & L1)]; [discriminate|].
    destruct (negb _); [discriminate|]. rewrite Z.eqb_refl. unfold point_mul. rewrite LT by assumption.
    destruct (e_ScalarMult _ _ _ _) as [x y]. destruct (_ && _); discriminate.
  - intros L. unfold Point_mulBaseG_add. destruct (negb _); [discriminate|].
    rewrite Z.eqb_refl. unfold mul_baseg_add. rewrite LT by assumption.
    destruct (e_ScalarBaseMult _ _) as [x y]. destruct (e_Add _ _ _ _ _) as [x' y']. destruct (_ && _); discriminate.
  - unfold PointDecompress. destruct (negb _); discriminate.
Qed.
Print Assumptions C15_k1_no_crash_partial.
Example C15_example : length (enc G) = 64%nat /\ nth 0 (compressed_bytes secp256k1 G) 0 = 2.
Proof. split; reflexivity. Qed.

(** C56: false; Verify does not check that the public key is on the curve. *)
Theorem C56_off_curve_keys_rejected_refuted : exists pub hash sig,
  bytes_ok pub /\ length pub = 64%nat /\ ~ on_curve (point_of_bytes secp256k1 pub) /\
  forall B ID, Verify B pub ID hash sig ECC_CURVE_SECP256K1 = Ret SUCCESS.
Proof.
  exists bad_pub, (repeat 0 32), (z2be 32 1 ++ z2be 32 1).
  split; [apply bytes_ok_app; apply z2be_ok|]. split; [reflexivity|]. split; [exact bad_pub_off_curve|].
  intros B ID. exact (k1_off_curve_accepted B ID).
Qed.
Print Assumptions C56_off_curve_keys_rejected_refuted.
