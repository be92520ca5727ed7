(** The byte-string level of ModelECDSA.v and of the dispatch of ModelApi.v,
    for a curve that implements the group law. *)
Require Import ZArith List Lia Znumtheory Bool.
Require Import Verif.Base Verif.Fp Verif.Weier Verif.Group Verif.EC Verif.SpecECDSA
  Verif.ModelK1 Verif.ModelECDSA Verif.ModelApi Verif.ProofECDSA Verif.ProofECDSA2.
Import ListNotations.
Open Scope Z_scope.

Section Bytes.
Variable E : ecurve.
Variable c : wcurve.
Hypothesis HE : implements E c.

Let Hv := im_valid E c HE.
Let Hb := im_b E c HE.
Let n := w_n c.
Let G := w_G c.

Lemma point_bytes_length P : length (point_bytes c P) = 64%nat.
Proof. unfold point_bytes. rewrite app_length, !z2be_length. reflexivity. Qed.
Lemma point_bytes_fst P : firstn 32 (point_bytes c P) = z2be 32 (px c P).
Proof. apply firstn_app_len, z2be_length. Qed.
Lemma point_bytes_snd P : skipn 32 (point_bytes c P) = z2be 32 (py c P).
Proof. apply skipn_app_len, z2be_length. Qed.
Lemma point_bytes_x P : be2z (firstn 32 (point_bytes c P)) = px c P.
Proof. rewrite point_bytes_fst. apply (z2be_px E c HE). Qed.
Lemma point_bytes_y P : be2z (skipn 32 (point_bytes c P)) = py c P.
Proof. rewrite point_bytes_snd. apply (z2be_py E c HE). Qed.
Lemma point_bytes_ok P : bytes_ok (point_bytes c P).
Proof. apply bytes_ok_app; apply z2be_ok. Qed.

Lemma point_bytes_inj P Q : w_on c P -> w_on c Q -> point_bytes c P = point_bytes c Q -> P = Q.
Proof.
  intros HP HQ H.
  assert (Ex : px c P = px c Q) by (rewrite <- (point_bytes_x P), <- (point_bytes_x Q), H; reflexivity).
  assert (Ey : py c P = py c Q) by (rewrite <- (point_bytes_y P), <- (point_bytes_y Q), H; reflexivity).
  destruct P as [|x1 y1].
  - symmetry. apply (on_00 c Hb); [exact HQ| |]; [rewrite <- Ex|rewrite <- Ey]; reflexivity.
  - destruct Q as [|x2 y2].
    + apply (on_00 c Hb); [exact HP| |]; [rewrite Ex|rewrite Ey]; reflexivity.
    + rewrite <- (paff_pxy c (Aff _ x1 y1)), <- (paff_pxy c (Aff _ x2 y2)) by discriminate.
      rewrite Ex, Ey. reflexivity.
Qed.

(** Verification on the encoding of a curve point. *)
Theorem ecdsa_verify_spec P hash sig : w_on c P ->
  (ecdsa_verify E (point_bytes c P) hash sig = true <->
   length sig = 64%nat /\ length hash = 32%nat /\
   ecdsa_valid c P (be2z hash) (be2z (firstn 32 sig)) (be2z (skipn 32 sig))).
Proof.
  intros HP. unfold ecdsa_verify. rewrite point_bytes_length. cbn [Nat.eqb negb].
  destruct (length sig =? 64)%nat eqn:L1; cbn [negb].
  2: { apply Nat.eqb_neq in L1. split; [discriminate|]. intros [H _]. contradiction. }
  destruct (length hash =? 32)%nat eqn:L2; cbn [negb].
  2: { apply Nat.eqb_neq in L2. split; [discriminate|]. intros (_ & H & _). contradiction. }
  apply Nat.eqb_eq in L1, L2. rewrite point_bytes_x, point_bytes_y.
  rewrite (verify_ecdsa_spec E c HE) by auto. tauto.
Qed.

Lemma sig_parts r s : 0 <= r < 2 ^ 255 -> 0 <= s < 2 ^ 255 ->
  let sig := z2be 32 r ++ z2be 32 s in
  length sig = 64%nat /\ be2z (firstn 32 sig) = r /\ be2z (skipn 32 sig) = s.
Proof.
  intros Hr Hs sig. unfold sig. rewrite app_length, !z2be_length.
  rewrite firstn_app_len, skipn_app_len by apply z2be_length.
  rewrite !z2be_small by assumption. auto.
Qed.

(** What a successful signing call returns. *)
Theorem ecdsa_sign_spec drbg entropy fuel prikey hash sig v :
  ecdsa_sign drbg E entropy fuel prikey hash = Some (Ok (sig, v)) ->
  length prikey = 32%nat /\ length hash = 32%nat /\ (bytes_ok prikey -> 0 < be2z prikey < n) /\
  exists r s, sig = z2be 32 r ++ z2be 32 s /\ good_sig c (be2z prikey) (be2z hash) r s v.
Proof.
  unfold ecdsa_sign.
  destruct (length prikey =? 32)%nat eqn:L1; [|discriminate].
  destruct (length hash =? 32)%nat eqn:L2; [|discriminate]. cbn [negb].
  apply Nat.eqb_eq in L1, L2.
  destruct (be2z prikey =? 0) eqn:D0; [discriminate|].
  rewrite (im_N E c HE). fold n.
  destruct (n <=? be2z prikey) eqn:D1; [discriminate|].
  destruct entropy as [ent|]; [|discriminate].
  destruct (sign_loop _ _ _ _ _ _) as [[[r s] v']|] eqn:EL; [|discriminate].
  intros [= <- <-]. apply Z.eqb_neq in D0. apply Z.leb_gt in D1.
  split; [exact L1|]. split; [exact L2|]. split.
  { intros Hk. pose proof (be2z_bound _ Hk) as B. clear - B D0 D1. lia. }
  apply (sign_loop_spec E c HE) in EL.
  rewrite (hash_to_int_32 n) in EL by (first [exact L2 | apply (n_size E c HE)]).
  exists r, s. split; [|exact EL].
  destruct EL as (k & _ & _ & _ & _ & Br & Bs & _).
  assert (B : 0 < 2 ^ 247 /\ 2 ^ 255 < 2 ^ 256) by (split; reflexivity).
  rewrite !pad32_big_bytes; [reflexivity| |]; clear - Br Bs B; lia.
Qed.

Theorem good_sig_canonical d e r s v : good_sig c d e r s v ->
  canonical_sig n (z2be 32 r ++ z2be 32 s) v.
Proof.
  intros (k & _ & Er & Ev & _ & Br & Bs & Bs2).
  exists (z2be 32 r), (z2be 32 s). cbn zeta in *.
  assert (B0 : 0 < 2 ^ 247 /\ 2 ^ 255 < 2 ^ 256) by (split; reflexivity).
  assert (D : forall z, 2 ^ 247 <= z < 2 ^ 255 -> der_minimal (z2be 32 z)).
  { intros z Hz. split; [apply z2be_length|].
    assert (Hz' : 0 <= z < 2 ^ 256) by (clear - Hz B0; lia).
    apply (der_clean_spec z Hz') in Hz. unfold der_clean in Hz.
    rewrite pad32_big_bytes in Hz by exact Hz'.
    pose proof (z2be_ok 32 z) as Ok. pose proof (z2be_length 32 z) as L.
    destruct (z2be 32 z) as [|b0 [|b1 l]]; [discriminate|discriminate|].
    cbn [nth] in *. inversion Ok as [|? ? O0 Ok1]; subst. inversion Ok1 as [|? ? O1 _]; subst.
    rewrite !land_128 in Hz by assumption. apply andb_true_iff in Hz. destruct Hz as [Z1 Z2].
    apply Z.ltb_lt in Z1. split; [exact Z1|]. intros ->.
    destruct (Z.ltb_spec b1 128); [discriminate|assumption]. }
  split; [reflexivity|]. split; [apply D; exact Br|]. split; [apply D; exact Bs|].
  rewrite !z2be_small by (clear - Br Bs B0; lia).
  pose proof (n_size E c HE) as Hns.
  assert (Bn : 0 <= r < n) by (rewrite Er; apply Z.mod_pos_bound; clear - Hns; unfold n; lia).
  split; [clear - Bn Br B0; lia|]. split; [clear - Bs2; unfold n; lia|].
  rewrite Ev. pose proof (Z.mod_pos_bound (py c (w_mul c k (w_G c))) 2 eq_refl) as Hm. clear - Hm.
  generalize dependent (py c (w_mul c k (w_G c)) mod 2). intros; lia.
Qed.

(** Errors of a signing call. *)
Theorem ecdsa_sign_err drbg entropy fuel prikey hash : bytes_ok prikey ->
  ecdsa_sign drbg E entropy fuel prikey hash = Some (Err ErrPrivateKeyIllegal) <->
  length prikey <> 32%nat \/
  (length hash = 32%nat /\ (be2z prikey = 0 \/ n <= be2z prikey)).
Proof.
  intros Hk. unfold ecdsa_sign.
  destruct (length prikey =? 32)%nat eqn:L1; cbn [negb].
  2: { apply Nat.eqb_neq in L1. tauto. }
  apply Nat.eqb_eq in L1.
  destruct (length hash =? 32)%nat eqn:L2; cbn [negb].
  2: { apply Nat.eqb_neq in L2. split; [discriminate|]. intros [H|[H _]]; contradiction. }
  apply Nat.eqb_eq in L2. rewrite (im_N E c HE). fold n.
  destruct (be2z prikey =? 0) eqn:D0.
  { apply Z.eqb_eq in D0. tauto. }
  destruct (n <=? be2z prikey) eqn:D1.
  { apply Z.leb_le in D1. tauto. }
  apply Z.eqb_neq in D0. apply Z.leb_gt in D1.
  split.
  - destruct entropy; [|discriminate]. destruct (sign_loop _ _ _ _ _ _) as [[[r s] v]|]; discriminate.
  - intros [H|[_ [H|H]]]; [contradiction|contradiction|clear - H D1; lia].
Qed.

(** Compression. *)
Lemma nth63 P : nth 63 (point_bytes c P) 0 mod 2 = py c P mod 2.
Proof.
  unfold point_bytes. rewrite app_nth2; rewrite z2be_length; [|clear; lia].
  pose proof (py_bound c Hv P) as Hy.
  rewrite nth_z2be by (first [apply Hy | clear; lia]).
  change (256 ^ Z.of_nat (32 - 1 - (63 - 32))) with 1. rewrite Z.div_1_r.
  change 256 with (2 * 128). rewrite Z.rem_mul_r by lia.
  rewrite Z.mul_comm, Z.mod_add by lia. apply Zmod_mod.
Qed.

Lemma compress64 b typ : length b = 64%nat ->
  typ = ECC_CURVE_SECP256K1 \/ typ = ECC_CURVE_SECP256R1 \/ typ = ECC_CURVE_SM2_STANDARD \/ typ = ECC_CURVE_PASTA ->
  PointCompress (Some b) typ = Some (2 + nth 63 b 0 mod 2 :: firstn 32 b) /\
  PointCompress (Some (4 :: b)) typ = Some (2 + nth 63 b 0 mod 2 :: firstn 32 b).
Proof.
  intros Hl Ht.
  assert (T : negb (typ =? ECC_CURVE_SECP256K1) && negb (typ =? ECC_CURVE_SECP256R1)
     && negb (typ =? ECC_CURVE_SM2_STANDARD) && negb (typ =? ECC_CURVE_PASTA) = false)
    by (destruct Ht as [-> | [-> | [-> | ->]]]; reflexivity).
  assert (Hpar : nth 63 b 0 mod 2 = 0 \/ nth 63 b 0 mod 2 = 1)
    by (pose proof (Z.mod_pos_bound (nth 63 b 0) 2 eq_refl) as H; generalize dependent (nth 63 b 0 mod 2); intros; lia).
  unfold PointCompress. rewrite T. split.
  - rewrite Hl. cbn [Nat.eqb andb negb]. rewrite Hl. cbn [Nat.eqb andb negb].
    destruct Hpar as [-> | ->]; reflexivity.
  - cbn [length]. rewrite Hl. cbn [Nat.eqb andb negb nth Z.eqb Pos.eqb skipn]. rewrite Hl.
    cbn [Nat.eqb negb]. destruct Hpar as [-> | ->]; reflexivity.
Qed.

Theorem compress_ok P typ :
  typ = ECC_CURVE_SECP256K1 \/ typ = ECC_CURVE_SECP256R1 \/ typ = ECC_CURVE_SM2_STANDARD \/ typ = ECC_CURVE_PASTA ->
  PointCompress (Some (point_bytes c P)) typ = Some (compressed_bytes c P) /\
  PointCompress (Some (4 :: point_bytes c P)) typ = Some (compressed_bytes c P).
Proof.
  intros Ht. unfold compressed_bytes.
  rewrite <- (nth63 P), <- (point_bytes_fst P). apply compress64; [apply point_bytes_length|exact Ht].
Qed.

(** Point functions. *)
Theorem point_add_spec P Q : w_on c P -> w_on c Q ->
  point_add E (point_bytes c P) (point_bytes c Q) =
    let S := w_add c P Q in
    if px c S =? 0 then Ret (None, true) else Ret (Some (point_bytes c S), false).
Proof.
  intros HP HQ. unfold point_add. rewrite !point_bytes_length. cbn [Nat.ltb Nat.leb orb].
  rewrite !point_bytes_x, !point_bytes_y, (im_add E c HE) by auto. cbn zeta.
  rewrite andb_diag. destruct (px c (w_add c P Q) =? 0); [reflexivity|].
  rewrite (marshal_pxy E c HE). reflexivity.
Qed.

Theorem point_mul_spec P k : w_on c P -> bytes_ok k ->
  let S := w_mul c (be2z k) P in
  (S = pinf c -> point_mul E (point_bytes c P) k = Ret (None, true)) /\
  (S <> pinf c -> point_mul E (point_bytes c P) k = Ret (Some (point_bytes c S), false)).
Proof.
  intros HP Hk S. unfold point_mul. rewrite point_bytes_length. cbn [Nat.ltb Nat.leb].
  rewrite point_bytes_x, point_bytes_y, (im_mul E c HE) by auto. fold S.
  assert (HS : w_on c S) by (apply mul_on; auto).
  pose proof (inf_test c Hb S HS) as I.
  destruct ((px c S =? 0) && (py c S =? 0)).
  - split; [reflexivity|]. intros H. exfalso. apply H, I. reflexivity.
  - rewrite (marshal_pxy E c HE). split; [|reflexivity]. intros H. apply I in H. discriminate.
Qed.

Theorem mul_baseg_add_spec P k : w_on c P -> bytes_ok k ->
  let S := w_add c (w_mul c (be2z k) G) P in
  (S = pinf c -> mul_baseg_add E (point_bytes c P) k = Ret (None, true)) /\
  (S <> pinf c -> mul_baseg_add E (point_bytes c P) k = Ret (Some (point_bytes c S), false)).
Proof.
  intros HP Hk S. unfold mul_baseg_add. rewrite point_bytes_length. cbn [Nat.ltb Nat.leb].
  rewrite (im_base E c HE) by auto. fold G.
  assert (GO := G_on c Hv). fold G in GO.
  rewrite point_bytes_x, point_bytes_y, (im_add E c HE) by (auto; apply mul_on; auto). fold S.
  assert (HS : w_on c S) by (apply add_on; auto; apply mul_on; auto).
  pose proof (inf_test c Hb S HS) as I.
  destruct ((px c S =? 0) && (py c S =? 0)).
  - split; [reflexivity|]. intros H. exfalso. apply H, I. reflexivity.
  - rewrite (marshal_pxy E c HE). split; [|reflexivity]. intros H. apply I in H. discriminate.
Qed.

(** The normalisation of point arguments. *)
Lemma point_arg_ok B typ P b : w_on c P -> P <> pinf c ->
  PointDecompress B (compressed_bytes c P) typ = Ret (Some (4 :: point_bytes c P)) ->
  encodes c P b -> point_arg B b typ = Ret (Some (point_bytes c P)).
Proof.
  intros HP HN HD [-> | [[tag ->] | ->]]; unfold point_arg.
  - rewrite point_bytes_length. reflexivity.
  - cbn [length]. rewrite point_bytes_length. reflexivity.
  - unfold compressed_bytes at 1. cbn [length]. rewrite z2be_length. cbn [Nat.eqb].
    rewrite HD. reflexivity.
Qed.

End Bytes.
