(** P-256 through the exported functions, for any implementation of the Go
    standard library's generic curve arithmetic that meets its contract. *)
Require Import ZArith List Lia Znumtheory Bool.
Require Import Verif.Base Verif.Fp Verif.Mont63 Verif.Weier Verif.Group Verif.EC Verif.Primes Verif.Curves
  Verif.SpecECDSA Verif.ModelK1 Verif.ModelECDSA Verif.ModelApi
  Verif.ProofECDSA Verif.ProofECDSA2 Verif.ProofECDSA3 Verif.ProofK1Api Verif.ProofK1Wit.
Import ListNotations.
Open Scope Z_scope.

Notation R1 := ECC_CURVE_SECP256R1.

Lemma sub_neg3 u x b : u - 3 * x + b = u + -3 * x + b.
Proof. ring. Qed.

Lemma sq_sub_mod p y : ((p - y) * (p - y)) mod p = (y * y) mod p.
Proof.
  replace ((p - y) * (p - y)) with (y * y + (p - 2 * y) * p) by ring. apply Z_mod_plus_full.
Qed.

Lemma x3b_shift x a b p : (x * x * x + b + (a + p) * x) mod p = (x * x * x + a * x + b) mod p.
Proof.
  replace (x * x * x + b + (a + p) * x) with (x * x * x + a * x + b + x * p) by ring.
  apply Z_mod_plus_full.
Qed.

Lemma r1_x3b x : (x * x * x + r1_B + r1_A * x) mod w_p p256 =
  (x * x * x + w_a p256 * x + w_b p256) mod w_p p256.
Proof. exact (x3b_shift x (w_a p256) (w_b p256) (w_p p256)). Qed.

Lemma r1_decompress_eq : r1_decompress = ec_decompress (w_p p256) (fun x => x * x * x + r1_B + r1_A * x).
Proof. reflexivity. Qed.

Section Api.
Variable B : backends.
Hypothesis r1_implements : implements (bk_r1 B) p256.

Lemma r1_decompress_ok P : w_on p256 P -> P <> pinf p256 ->
  r1_decompress (compressed_bytes p256 P) = Some (4 :: point_bytes p256 P).
Proof using r1_implements.
  intros HP HN. rewrite r1_decompress_eq. exact (decompress_ok (bk_r1 B) p256 r1_implements _ r1_x3b P HP HN).
Qed.

Theorem r1_genpub prikey : bytes_ok prikey ->
  GenPubkey B prikey R1 =
    if (length prikey =? 32)%nat && (0 <? be2z prikey) && (be2z prikey <? w_n p256)
    then Ret (Some (point_bytes p256 (w_mul p256 (be2z prikey) (w_G p256))), SUCCESS)
    else Ret (None, ECC_PRIKEY_ILLEGAL).
Proof.
  intros Hk. change (GenPubkey B prikey R1) with (genpub_ret (Ret (gen_public_key (bk_r1 B) prikey))).
  rewrite (gen_public_key_spec (bk_r1 B) p256 r1_implements) by exact Hk.
  destruct (_ && _); reflexivity.
Qed.

Lemma r1_sign_inv prikey ID hash sig v :
  Signature B prikey ID hash R1 = Some (Ret (Some sig, v, SUCCESS)) ->
  ecdsa_sign (bk_drbg B) (bk_r1 B) (bk_entropy B) (bk_fuel B) prikey hash = Some (Ok (sig, v)).
Proof.
  change (Signature B prikey ID hash R1) with
    (sign_ret (no_panic (ecdsa_sign (bk_drbg B) (bk_r1 B) (bk_entropy B) (bk_fuel B) prikey hash))).
  destruct (ecdsa_sign _ _ _ _ _ _) as [[[sg vv]|e]|]; cbn [no_panic sign_ret]; [|destruct e; discriminate|discriminate].
  intros [= <- <-]. reflexivity.
Qed.

Lemma r1_sign_good prikey ID hash sig v : bytes_ok prikey ->
  Signature B prikey ID hash R1 = Some (Ret (Some sig, v, SUCCESS)) ->
  length prikey = 32%nat /\ length hash = 32%nat /\ 0 < be2z prikey < w_n p256 /\
  exists r s, sig = z2be 32 r ++ z2be 32 s /\ good_sig p256 (be2z prikey) (be2z hash) r s v.
Proof.
  intros Hk H. apply r1_sign_inv in H.
  destruct (ecdsa_sign_spec (bk_r1 B) p256 r1_implements _ _ _ _ _ _ _ H) as (L1 & L2 & Hd & R).
  auto.
Qed.

Theorem r1_sign_canonical prikey ID hash sig v : bytes_ok prikey ->
  Signature B prikey ID hash R1 = Some (Ret (Some sig, v, SUCCESS)) -> canonical_sig (w_n p256) sig v.
Proof.
  intros Hk H. destruct (r1_sign_good _ _ _ _ _ Hk H) as (_ & _ & _ & r & s & -> & Hg).
  exact (good_sig_canonical (bk_r1 B) p256 r1_implements _ _ _ _ _ Hg).
Qed.

Lemma r1_verify_eq pub ID hash sig :
  Verify B pub ID hash sig R1 = Ret (if ecdsa_verify (bk_r1 B) pub hash sig then SUCCESS else FAILURE).
Proof.
  change (Verify B pub ID hash sig R1) with (verify_ret (Ret (ecdsa_verify (bk_r1 B) pub hash sig))).
  destruct (ecdsa_verify (bk_r1 B) pub hash sig); reflexivity.
Qed.

Theorem r1_sign_verify prikey ID ID' hash sig v pub : bytes_ok prikey ->
  Signature B prikey ID hash R1 = Some (Ret (Some sig, v, SUCCESS)) ->
  GenPubkey B prikey R1 = Ret (Some pub, SUCCESS) ->
  Verify B pub ID' hash sig R1 = Ret SUCCESS.
Proof.
  intros Hk Hs Hp. destruct (r1_sign_good _ _ _ _ _ Hk Hs) as (L1 & L2 & Hd & r & s & -> & Hg).
  rewrite r1_genpub in Hp by exact Hk. destruct (_ && _); [|discriminate]. injection Hp as <-.
  rewrite r1_verify_eq.
  pose proof (ecdsa_verify_spec (bk_r1 B) p256 r1_implements (w_mul p256 (be2z prikey) (w_G p256)) hash
    (z2be 32 r ++ z2be 32 s)) as V.
  destruct (ecdsa_verify _ _ _ _); [reflexivity|]. exfalso.
  enough (false = true) by discriminate. apply V.
  - apply mul_on; [exact p256_valid|]. apply (wv_Gon _ p256_valid).
  - pose proof Hg as (k & _ & _ & _ & _ & Br & Bs & _).
    assert (B0 : 0 < 2 ^ 247) by reflexivity.
    destruct (sig_parts r s) as (S1 & S2 & S3); [clear - Br B0; lia|clear - Bs B0; lia|].
    rewrite S2, S3. split; [exact S1|]. split; [exact L2|].
    apply (good_sig_valid (bk_r1 B) p256 r1_implements _ _ _ _ v). exact Hg.
Qed.

Theorem r1_verify_iff P ID hash sig : w_on p256 P ->
  (Verify B (point_bytes p256 P) ID hash sig R1 = Ret SUCCESS <->
   length sig = 64%nat /\ length hash = 32%nat /\
   ecdsa_valid p256 P (be2z hash) (be2z (firstn 32 sig)) (be2z (skipn 32 sig))).
Proof.
  intros Ho. rewrite r1_verify_eq.
  rewrite <- (ecdsa_verify_spec (bk_r1 B) p256 r1_implements P hash sig Ho).
  destruct (ecdsa_verify _ _ _ _); split; intros H; try discriminate; reflexivity.
Qed.

Theorem r1_recover_signed prikey ID hash sig v : bytes_ok prikey -> bytes_ok hash ->
  Signature B prikey ID hash R1 = Some (Ret (Some sig, v, SUCCESS)) ->
  be2z hash mod w_n p256 <> 0 ->
  RecoverPubkey B (sig ++ [v]) hash R1 = GenPubkey B prikey R1.
Proof.
  intros Hk Hh Hs H0. destruct (r1_sign_good _ _ _ _ _ Hk Hs) as (L1 & L2 & Hd & r & s & -> & Hg).
  rewrite r1_genpub by exact Hk. rewrite L1.
  replace (0 <? be2z prikey) with true by (symmetry; apply Z.ltb_lt; apply Hd).
  replace (be2z prikey <? w_n p256) with true by (symmetry; apply Z.ltb_lt; apply Hd).
  cbn [Nat.eqb andb].
  change (RecoverPubkey B ((z2be 32 r ++ z2be 32 s) ++ [v]) hash R1) with
    (recover_ret (recover_public (bk_r1 B) r1_decompress ((z2be 32 r ++ z2be 32 s) ++ [v]) hash)).
  rewrite <- app_assoc, r1_decompress_eq.
  rewrite (recover_good (bk_r1 B) p256 r1_implements _ r1_x3b (be2z prikey)) by assumption.
  reflexivity.
Qed.

Theorem r1_recover_no_panic sig hash :
  be2z (firstn 32 sig) mod w_n p256 <> 0 -> RecoverPubkey B sig hash R1 <> Panic.
Proof.
  intros Hr. change (RecoverPubkey B sig hash R1) with (recover_ret (recover_public (bk_r1 B) r1_decompress sig hash)).
  pose proof (recover_no_panic (bk_r1 B) p256 r1_implements (fun x => x * x * x + r1_B + r1_A * x) sig hash Hr) as H.
  rewrite <- r1_decompress_eq in H.
  destruct (recover_public _ _ _ _) as [[p|]|]; [discriminate|discriminate|]. exfalso. apply H. reflexivity.
Qed.

Theorem r1_recover_panics s v hash : length s = 32%nat -> length hash = 32%nat ->
  RecoverPubkey B (repeat 0 32 ++ s ++ [v]) hash R1 = Panic.
Proof.
  intros Hs Hh.
  change (RecoverPubkey B (repeat 0 32 ++ s ++ [v]) hash R1) with
    (recover_ret (recover_public (bk_r1 B) r1_decompress (repeat 0 32 ++ s ++ [v]) hash)).
  unfold recover_public. rewrite !app_length, repeat_length, Hs, Hh. cbn [length Nat.add Nat.eqb negb orb].
  rewrite firstn_app_len by apply repeat_length.
  rewrite (im_N _ _ r1_implements), mod_inverse_none; [reflexivity|exact prime_r1n|reflexivity].
Qed.

(** Compression. *)
Lemma comp_length P : length (compressed_bytes p256 P) = 33%nat.
Proof. unfold compressed_bytes. cbn [length]. rewrite z2be_length. reflexivity. Qed.

Lemma r1_pd b : length b = 33%nat -> PointDecompress B b R1 = Ret (r1_decompress b).
Proof. intros H. unfold PointDecompress. rewrite H. reflexivity. Qed.

Theorem r1_roundtrip P : w_on p256 P -> P <> pinf p256 ->
  exists cb, PointCompress (Some (point_bytes p256 P)) R1 = Some cb /\
             PointCompress (Some (4 :: point_bytes p256 P)) R1 = Some cb /\
             PointDecompress B cb R1 = Ret (Some (4 :: point_bytes p256 P)).
Proof.
  intros HP HN. exists (compressed_bytes p256 P).
  destruct (compress_ok (bk_r1 B) p256 r1_implements P R1) as [C1 C2]; [auto|].
  split; [exact C1|]. split; [exact C2|].
  rewrite r1_pd by apply comp_length. rewrite r1_decompress_ok by assumption. reflexivity.
Qed.

(** Decompression of any 33 bytes with tag 02 or 03: when x^3 + 7 is a square
    the result is the point with that x-coordinate and parity. *)
Theorem r1_decompress_sound tag xs y : tag = 2 \/ tag = 3 -> bytes_ok xs -> length xs = 32%nat ->
  (y * y) mod w_p p256 = (be2z xs * be2z xs * be2z xs - 3 * be2z xs + w_b p256) mod w_p p256 ->
  exists ys, PointDecompress B (tag :: xs) R1 = Ret (Some (4 :: xs ++ ys)) /\
    length ys = 32%nat /\
    w_on p256 (point_of_bytes p256 (xs ++ ys)) /\ be2z ys mod 2 = tag - 2.
Proof.
  intros Ht Hx Hl Hy. rewrite r1_pd by (cbn [length]; rewrite Hl; reflexivity).
  rewrite r1_decompress_eq. unfold ec_decompress. cbn [length]. rewrite Hl. cbn [Nat.eqb negb orb].
  replace (negb (tag =? 2) && negb (tag =? 3)) with false by (destruct Ht as [-> | ->]; reflexivity).
  set (x := be2z xs) in *.
  assert (H4 : w_p p256 mod 4 = 3) by reflexivity.
  destruct (mod_sqrt34_complete ((x * x * x + r1_B + r1_A * x) mod w_p p256) (w_p p256) y prime_r1p H4) as [y0 E0].
  { rewrite Zmod_mod, Hy, r1_x3b. f_equal. rewrite sub_neg3. reflexivity. }
  rewrite E0. destruct (mod_sqrt34_some _ (w_p p256) y0 ltac:(reflexivity) E0) as [By Ey].
  rewrite Zmod_mod in Ey. clear E0.
  set (yb := if tag =? 2 then 0 else 1).
  assert (Hyb : yb = tag - 2 /\ (yb = 0 \/ yb = 1)) by (unfold yb; destruct Ht as [-> | ->]; cbn; auto).
  clearbody yb. destruct Hyb as [Hyb1 Hyb].
  assert (F : forall y1, 0 <= y1 <= w_p p256 -> (y1 * y1) mod w_p p256 = (x * x * x + r1_B + r1_A * x) mod w_p p256 -> y1 mod 2 = yb ->
    exists ys, Ret (Some (4 :: xs ++ pad32 (big_bytes y1))) = Ret (Some (4 :: xs ++ ys)) /\
      length ys = 32%nat /\ w_on p256 (point_of_bytes p256 (xs ++ ys)) /\ be2z ys mod 2 = tag - 2).
  { intros y1 B1 E1 P1. exists (z2be 32 y1).
    assert (HP : w_p p256 < 2 ^ 256) by reflexivity.
    rewrite pad32_big_bytes by (clear - B1 HP; lia).
    split; [reflexivity|]. split; [apply z2be_length|].
    assert (Ez : be2z (z2be 32 y1) = y1).
    { rewrite be2z_z2be, pow256_32. apply Z.mod_small. clear - B1 HP; lia. }
    split.
    - unfold point_of_bytes. rewrite firstn_app_len, skipn_app_len, Ez by exact Hl. fold x.
      apply paff_on_iff. rewrite E1. apply r1_x3b.
    - rewrite Ez, P1. exact Hyb1. }
  destruct (y0 mod 2 =? yb) eqn:E1.
  - rewrite E1. apply Z.eqb_eq in E1. apply F; [clear - By; lia|exact Ey|exact E1].
  - apply Z.eqb_neq in E1.
    assert (E2 : (w_p p256 - y0) mod 2 = yb) by (clear - E1 Hyb H4; lia).
    rewrite E2, Z.eqb_refl. apply F; [clear - By; lia| |exact E2].
    rewrite <- Ey. apply sq_sub_mod.
Qed.

(** Point functions. *)
Lemma r1_arg P b : w_on p256 P -> P <> pinf p256 -> encodes p256 P b ->
  point_arg B b R1 = Ret (Some (point_bytes p256 P)).
Proof.
  intros HP HN He. apply point_arg_ok; auto.
  rewrite r1_pd by apply comp_length. rewrite r1_decompress_ok by assumption. reflexivity.
Qed.

(** The sum is reported as infinity also when its x-coordinate is 0. *)
Theorem r1_point_add P Q bp bq :
  w_on p256 P -> w_on p256 Q -> P <> pinf p256 -> Q <> pinf p256 -> encodes p256 P bp -> encodes p256 Q bq ->
  let S := w_add p256 P Q in
  (px p256 S = 0 -> Point_add B bp bq R1 = Ret (None, FAILURE)) /\
  (px p256 S <> 0 -> Point_add B bp bq R1 = Ret (Some (point_bytes p256 S), SUCCESS)).
Proof.
  intros HP HQ NP NQ EP EQ S.
  assert (A : Point_add B bp bq R1 = inf_ret (point_add (bk_r1 B) (point_bytes p256 P) (point_bytes p256 Q))).
  { unfold Point_add. change (R1 =? ECC_CURVE_ED25519) with false. cbv iota.
    rewrite (r1_arg P bp), (r1_arg Q bq) by assumption. reflexivity. }
  rewrite A, (point_add_spec (bk_r1 B) p256 r1_implements) by assumption. cbn zeta. fold S.
  split; intros H; [apply Z.eqb_eq in H|apply Z.eqb_neq in H]; rewrite H; reflexivity.
Qed.

Theorem r1_point_mul P bp k :
  w_on p256 P -> P <> pinf p256 -> encodes p256 P bp -> bytes_ok k -> length k = 32%nat ->
  let S := w_mul p256 (be2z k) P in
  (S = pinf p256 -> Point_mul B bp k R1 = Ret (None, FAILURE)) /\
  (S <> pinf p256 -> Point_mul B bp k R1 = Ret (Some (point_bytes p256 S), SUCCESS)).
Proof.
  intros HP NP EP Hk Lk S.
  assert (A : Point_mul B bp k R1 = inf_ret (point_mul (bk_r1 B) (point_bytes p256 P) k)).
  { unfold Point_mul. change (R1 =? ECC_CURVE_ED25519) with false. cbv iota.
    rewrite (r1_arg P bp), Lk by assumption. reflexivity. }
  rewrite A. destruct (point_mul_spec (bk_r1 B) p256 r1_implements P k HP Hk) as [M1 M2]. fold S in M1, M2.
  split; intros H; [rewrite (M1 H)|rewrite (M2 H)]; reflexivity.
Qed.

Theorem r1_mulbaseg_add P k : w_on p256 P -> bytes_ok k -> length k = 32%nat ->
  let S := w_add p256 (w_mul p256 (be2z k) (w_G p256)) P in
  (S = pinf p256 -> Point_mulBaseG_add B (point_bytes p256 P) k R1 = Ret (None, true)) /\
  (S <> pinf p256 -> Point_mulBaseG_add B (point_bytes p256 P) k R1 = Ret (Some (point_bytes p256 S), false)).
Proof.
  intros HP Hk Lk S.
  assert (A : Point_mulBaseG_add B (point_bytes p256 P) k R1 = mul_baseg_add (bk_r1 B) (point_bytes p256 P) k).
  { unfold Point_mulBaseG_add. rewrite Lk. reflexivity. }
  rewrite A. apply (mul_baseg_add_spec (bk_r1 B) p256 r1_implements); assumption.
Qed.

Theorem r1_homomorphic a b pub : bytes_ok a -> bytes_ok b -> length b = 32%nat ->
  GenPubkey B a R1 = Ret (Some pub, SUCCESS) ->
  let s := (be2z a + be2z b) mod w_n p256 in
  (s <> 0 -> exists p, Point_mulBaseG_add B pub b R1 = Ret (Some p, false) /\
                       GenPubkey B (z2be 32 s) R1 = Ret (Some p, SUCCESS)) /\
  (s = 0 -> Point_mulBaseG_add B pub b R1 = Ret (None, true)).
Proof.
  intros Ha Hb Lb Hp s. rewrite r1_genpub in Hp by exact Ha. destruct (_ && _); [|discriminate].
  injection Hp as <-.
  assert (GO : w_on p256 (w_G p256)) by apply (wv_Gon _ p256_valid).
  destruct (r1_mulbaseg_add (w_mul p256 (be2z a) (w_G p256)) b) as [M1 M2];
    [apply mul_on; [exact p256_valid|exact GO]|exact Hb|exact Lb|].
  assert (ES : w_add p256 (w_mul p256 (be2z b) (w_G p256)) (w_mul p256 (be2z a) (w_G p256)) = w_mul p256 s (w_G p256)).
  { rewrite (mulG_add p256 p256_valid). symmetry. unfold s. rewrite (mulG_mod p256 p256_valid).
    f_equal. ring. }
  rewrite ES in M1, M2.
  assert (Hn : 0 < w_n p256 < 2 ^ 256) by (split; reflexivity).
  assert (Bs : 0 <= s < w_n p256) by (apply Z.mod_pos_bound; apply Hn).
  assert (Es : be2z (z2be 32 s) = s)
    by (rewrite be2z_z2be, pow256_32; apply Z.mod_small; clear - Bs Hn; lia).
  split; intros H0.
  - exists (point_bytes p256 (w_mul p256 s (w_G p256))). split.
    + apply M2. intros E. apply (mulG_inf p256 p256_valid) in E. rewrite Z.mod_small in E by exact Bs. contradiction.
    + rewrite r1_genpub by apply z2be_ok. rewrite z2be_length, Es.
      replace (0 <? s) with true by (symmetry; apply Z.ltb_lt; clear - Bs H0; lia).
      replace (s <? w_n p256) with true by (symmetry; apply Z.ltb_lt; apply Bs). reflexivity.
  - apply M1. rewrite H0. reflexivity.
Qed.

End Api.
