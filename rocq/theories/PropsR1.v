(** Properties C16, C17 and C57: P-256.  The curve arithmetic is the generic
    implementation of Go's crypto/elliptic, which is not part of the modelled
    code; [implements (bk_r1 B) p256] is its contract. *)
Require Import ZArith List Lia Znumtheory Bool.
Require Import Verif.Base Verif.EC Verif.Curves Verif.SpecECDSA Verif.ModelK1 Verif.ModelECDSA Verif.ModelApi
  Verif.ProofECDSA Verif.ProofECDSA2 Verif.ProofECDSA3 Verif.ProofK1Api Verif.ProofK1Wit Verif.PropsK1
  Verif.ProofR1Api Verif.ProofR1Wit.
Import ListNotations.
Open Scope Z_scope.

Local Notation N := (w_n p256).
Local Notation G := (w_G p256).
Local Notation O := (pinf p256).
Local Notation "k ** P" := (w_mul p256 k P) (at level 39).
Local Notation "P ++' Q" := (w_add p256 P Q) (at level 60).
Local Notation on_curve := (w_on p256).
Local Notation enc := (point_bytes p256).

(** The contract is satisfiable: the group law itself meets it. *)
Definition demo_R1 : backends :=
  {| bk_drbg := zero_blocks; bk_entropy := Some []; bk_fuel := 1;
     bk_rand := bk_rand demo_B; bk_r1 := ref_curve p256;
     bk_ed_normal := bk_ed_normal demo_B; bk_ed := bk_ed demo_B; bk_x := bk_x demo_B; bk_sha256 := bk_sha256 demo_B;
     bk_ed_baseadd := bk_ed_baseadd demo_B; bk_ed_add := bk_ed_add demo_B;
     bk_bls := bk_bls demo_B; bk_bls_baseadd := bk_bls_baseadd demo_B; bk_bls_aggregate := bk_bls_aggregate demo_B;
     bk_pasta := bk_pasta demo_B; bk_pasta_baseadd := bk_pasta_baseadd demo_B; bk_pasta_add := bk_pasta_add demo_B;
     bk_pasta_mul := bk_pasta_mul demo_B; bk_pasta_decompress := bk_pasta_decompress demo_B |}.
Example R1_contract_satisfiable : implements (bk_r1 demo_R1) p256.
Proof. exact ref_p256_implements. Qed.
Definition demo_r1_sig (e : Z) : bytes := z2be 32 (w_gx p256) ++ z2be 32 (w_gx p256 + e).
Example R1_demo_signature : 
  Signature demo_R1 key1 None (hash_of 5) ECC_CURVE_SECP256R1 = Some (Ret (Some (demo_r1_sig 5), 1, SUCCESS)) /\
  GenPubkey demo_R1 key1 ECC_CURVE_SECP256R1 = Ret (Some (enc G), SUCCESS).
Proof.
  split.
  - change (Signature demo_R1 key1 None (hash_of 5) ECC_CURVE_SECP256R1) with
      (sign_ret (no_panic (ecdsa_sign zero_blocks (ref_curve p256) (Some []) 1 key1 (hash_of 5)))).
    rewrite r1_sign_example by (split; [discriminate|reflexivity]). reflexivity.
  - rewrite (r1_genpub _ R1_contract_satisfiable) by exact key1_ok. reflexivity.
Qed.

(** C16: false; there are points whose sum has x = 0, is not infinity, and is
    reported as FAILURE.  The exact behaviour is the second theorem. *)
Theorem C16_r1_sum_x0_refuted : exists P Q, on_curve P /\ on_curve Q /\ P <> O /\ Q <> O /\ P ++' Q <> O /\
  forall B, implements (bk_r1 B) p256 ->
    Point_add B (enc P) (enc Q) ECC_CURVE_SECP256R1 = Ret (None, FAILURE).
Proof.
  exists (paff p256 r1_wx r1_wy), G.
  assert (HG : on_curve G) by apply (wv_Gon _ p256_valid).
  split; [exact r1_w_on|]. split; [exact HG|]. split; [discriminate|]. split; [discriminate|].
  split; [rewrite r1_w_sum; discriminate|].
  intros B HB. apply (r1_point_add B HB (paff p256 r1_wx r1_wy) G);
    [exact r1_w_on|exact HG|discriminate|discriminate|left; reflexivity|left; reflexivity|].
  rewrite r1_w_sum. reflexivity.
Qed.
Print Assumptions C16_r1_sum_x0_refuted.
Theorem C16_r1_point_add_partial : forall B, implements (bk_r1 B) p256 -> forall P Q bp bq,
  on_curve P -> on_curve Q -> P <> O -> Q <> O -> encodes p256 P bp -> encodes p256 Q bq ->
  (px p256 (P ++' Q) = 0 -> Point_add B bp bq ECC_CURVE_SECP256R1 = Ret (None, FAILURE)) /\
  (px p256 (P ++' Q) <> 0 -> Point_add B bp bq ECC_CURVE_SECP256R1 = Ret (Some (enc (P ++' Q)), SUCCESS)).
Proof. exact r1_point_add. Qed.
Print Assumptions C16_r1_point_add_partial.

(** C17 *)
Theorem C17_r1_signatures_verify : forall B, implements (bk_r1 B) p256 ->
  forall prikey ID ID' hash sig v pub, bytes_ok prikey ->
  Signature B prikey ID hash ECC_CURVE_SECP256R1 = Some (Ret (Some sig, v, SUCCESS)) ->
  GenPubkey B prikey ECC_CURVE_SECP256R1 = Ret (Some pub, SUCCESS) ->
  Verify B pub ID' hash sig ECC_CURVE_SECP256R1 = Ret SUCCESS.
Proof. exact r1_sign_verify. Qed.
Print Assumptions C17_r1_signatures_verify.
Theorem C17_r1_signatures_canonical : forall B, implements (bk_r1 B) p256 ->
  forall prikey ID hash sig v, bytes_ok prikey ->
  Signature B prikey ID hash ECC_CURVE_SECP256R1 = Some (Ret (Some sig, v, SUCCESS)) ->
  canonical_sig N sig v.
Proof. exact r1_sign_canonical. Qed.
Theorem C17_r1_recovery : forall B, implements (bk_r1 B) p256 ->
  forall prikey ID hash sig v, bytes_ok prikey -> bytes_ok hash ->
  Signature B prikey ID hash ECC_CURVE_SECP256R1 = Some (Ret (Some sig, v, SUCCESS)) ->
  be2z hash mod N <> 0 ->
  RecoverPubkey B (sig ++ [v]) hash ECC_CURVE_SECP256R1 = GenPubkey B prikey ECC_CURVE_SECP256R1.
Proof. exact r1_recover_signed. Qed.
Print Assumptions C17_r1_recovery.

(** C57 *)
Theorem C57_r1_public_key : forall B, implements (bk_r1 B) p256 -> forall prikey, bytes_ok prikey ->
  GenPubkey B prikey ECC_CURVE_SECP256R1 =
    if (length prikey =? 32)%nat && (0 <? be2z prikey) && (be2z prikey <? N)
    then Ret (Some (enc (be2z prikey ** G)), SUCCESS)
    else Ret (None, ECC_PRIKEY_ILLEGAL).
Proof. exact r1_genpub. Qed.
Theorem C57_r1_verify_is_ecdsa : forall B, implements (bk_r1 B) p256 -> forall Q ID hash sig, on_curve Q ->
  (Verify B (enc Q) ID hash sig ECC_CURVE_SECP256R1 = Ret SUCCESS <->
   length sig = 64%nat /\ length hash = 32%nat /\
   ecdsa_valid p256 Q (be2z hash) (be2z (firstn 32 sig)) (be2z (skipn 32 sig))).
Proof. exact r1_verify_iff. Qed.
Theorem C57_r1_compression_round_trip : forall B, implements (bk_r1 B) p256 -> forall P, on_curve P -> P <> O ->
  exists cb, PointCompress (Some (enc P)) ECC_CURVE_SECP256R1 = Some cb /\
             PointCompress (Some (4 :: enc P)) ECC_CURVE_SECP256R1 = Some cb /\
             PointDecompress B cb ECC_CURVE_SECP256R1 = Ret (Some (4 :: enc P)).
Proof. exact r1_roundtrip. Qed.
Theorem C57_r1_point_mul : forall B, implements (bk_r1 B) p256 -> forall P bp k,
  on_curve P -> P <> O -> encodes p256 P bp -> bytes_ok k -> length k = 32%nat ->
  (be2z k ** P = O -> Point_mul B bp k ECC_CURVE_SECP256R1 = Ret (None, FAILURE)) /\
  (be2z k ** P <> O -> Point_mul B bp k ECC_CURVE_SECP256R1 = Ret (Some (enc (be2z k ** P)), SUCCESS)).
Proof. exact r1_point_mul. Qed.
Theorem C57_r1_mulBaseG_add : forall B, implements (bk_r1 B) p256 -> forall P k,
  on_curve P -> bytes_ok k -> length k = 32%nat ->
  ((be2z k ** G) ++' P = O -> Point_mulBaseG_add B (enc P) k ECC_CURVE_SECP256R1 = Ret (None, true)) /\
  ((be2z k ** G) ++' P <> O ->
     Point_mulBaseG_add B (enc P) k ECC_CURVE_SECP256R1 = Ret (Some (enc ((be2z k ** G) ++' P)), false)).
Proof. exact r1_mulbaseg_add. Qed.
Theorem C57_r1_homomorphic : forall B, implements (bk_r1 B) p256 -> forall a b pub,
  bytes_ok a -> bytes_ok b -> length b = 32%nat ->
  GenPubkey B a ECC_CURVE_SECP256R1 = Ret (Some pub, SUCCESS) ->
  let s := (be2z a + be2z b) mod N in
  (s <> 0 -> exists p, Point_mulBaseG_add B pub b ECC_CURVE_SECP256R1 = Ret (Some p, false) /\
                       GenPubkey B (z2be 32 s) ECC_CURVE_SECP256R1 = Ret (Some p, SUCCESS)) /\
  (s = 0 -> Point_mulBaseG_add B pub b ECC_CURVE_SECP256R1 = Ret (None, true)).
Proof. exact r1_homomorphic. Qed.
Print Assumptions C57_r1_homomorphic.
Example C57_example : on_curve G /\ G <> O.
Proof. split; [apply (wv_Gon _ p256_valid)|discriminate]. Qed.
