(** secp256k1 through the exported functions. *)
Require Import ZArith List Lia Znumtheory Bool.
Require Import Verif.Base Verif.Fp Verif.Mont63 Verif.Weier Verif.Group Verif.EC Verif.Primes Verif.Curves
  Verif.SpecECDSA Verif.ModelK1 Verif.ProofK1 Verif.ModelECDSA Verif.ModelApi
  Verif.ProofECDSA Verif.ProofECDSA2 Verif.ProofECDSA3.
Import ListNotations.
Open Scope Z_scope.

(** A quadratic non-residue, from one modular power. *)
Lemma euler_nonresidue p a : prime p -> p mod 4 = 3 -> (a ^ ((p - 1) / 2)) mod p = p - 1 ->
  forall y, (y * y) mod p <> a mod p.
Proof.
  intros Hp H4 He y Hy. pose proof (p_gt1 p Hp) as H1.
  assert (Hp2 : 2 < p) by (clear - H4 H1; assert (p <> 2) by (intros ->; discriminate); lia).
  assert (Hh : 0 <= (p - 1) / 2) by (apply Z.div_pos; lia).
  rewrite <- pow_mod_mod, <- Hy, pow_mod_mod in He by lia.
  replace (y * y) with (y ^ 2) in He by ring. rewrite <- Z.pow_mul_r in He by lia.
  replace (2 * ((p - 1) / 2)) with (p - 1) in He by (clear - H4; lia).
  destruct (Z.eq_dec (y mod p) 0) as [E|E].
  - rewrite <- pow_mod_mod, E, Z.pow_0_l, Zmod_0_l in He by lia. lia.
  - rewrite fermat in He by auto. lia.
Qed.

Lemma seven_nonresidue y : (y * y) mod w_p secp256k1 <> 7 mod w_p secp256k1.
Proof.
  apply euler_nonresidue; [exact prime_k1p|reflexivity|].
  assert (Hm : mctx_ok ctx_k1p = true) by (vm_compute; reflexivity).
  pose proof (c_powmod_spec ctx_k1p Hm 7 (Z.to_pos ((w_p secp256k1 - 1) / 2)) (w_p secp256k1 - 1)) as H.
  rewrite Z2Pos.id in H by reflexivity. apply H. vm_compute. reflexivity.
Qed.

Lemma k1_Hcp : w_p secp256k1 = k1_P. Proof. symmetry. exact k1_P_eq. Qed.
Lemma k1_Hf : w_field_ok secp256k1. Proof. exact (wv_field _ secp256k1_valid). Qed.

Lemma k1_b_ok : w_b secp256k1 mod w_p secp256k1 <> 0.
Proof. vm_compute. discriminate. Qed.

Lemma k1_dec2 P : w_on secp256k1 P -> dec2 secp256k1 (px _ P) (py _ P) = P.
Proof.
  intros HP. pose proof (inf_test _ k1_b_ok P HP) as I. unfold dec2.
  destruct ((px secp256k1 P =? 0) && (py secp256k1 P =? 0)).
  - symmetry. apply I. reflexivity.
  - apply paff_pxy. intros H. apply I in H. discriminate.
Qed.

Lemma k1_mul_any x y k : w_on secp256k1 (paff secp256k1 x y) -> bytes_ok k ->
  k1_scalar_mult x y k =
    let S := w_mul secp256k1 (be2z k) (paff secp256k1 x y) in (px _ S, py _ S).
Proof.
  intros Ho Hk. apply (k1_scalar_mult_spec secp256k1 k1_Hcp eq_refl k1_Hf); assumption.
Qed.

Theorem k1_implements : implements k1_curve secp256k1.
Proof.
  constructor.
  - exact secp256k1_valid.
  - exact k1_b_ok.
  - split; reflexivity.
  - split; reflexivity.
  - split; reflexivity.
  - reflexivity.
  - exact k1_P_eq.
  - reflexivity.
  - intros P Q HP HQ.
    pose proof (k1_add_spec secp256k1 k1_Hcp eq_refl k1_Hf (px _ P) (py _ P) (px _ Q) (py _ Q)) as H.
    rewrite !k1_dec2 in H by assumption. apply H; assumption.
  - intros P k HP Hk. change (e_ScalarMult k1_curve) with k1_scalar_mult.
    destruct P as [|x y].
    + cbn [px py]. rewrite k1_scalar_mult_00. unfold w_mul.
      rewrite (zmul_zero _ _ _ _ _ (w_group _ k1_Hf)). reflexivity.
    + pose proof (paff_pxy secp256k1 (Aff _ x y) ltac:(discriminate)) as E.
      rewrite k1_mul_any; rewrite ?E; auto.
  - intros k Hk. change (e_ScalarBaseMult k1_curve) with k1_scalar_base_mult.
    unfold k1_scalar_base_mult. rewrite k1_mul_any; [reflexivity| |exact Hk].
    apply (wv_Gon _ secp256k1_valid).
Qed.

Lemma k1_x3b x : (x * x * x + k1_B) mod w_p secp256k1 =
  (x * x * x + w_a secp256k1 * x + w_b secp256k1) mod w_p secp256k1.
Proof. f_equal. cbn [w_a w_b secp256k1]. unfold k1_B. ring. Qed.

Lemma k1_decompress_eq : k1_decompress = ec_decompress (w_p secp256k1) (fun x => x * x * x + k1_B).
Proof. unfold k1_decompress. rewrite k1_Hcp. reflexivity. Qed.

Notation k1 := secp256k1.
Notation K1 := ECC_CURVE_SECP256K1.

Lemma k1_decompress_ok P : w_on k1 P -> P <> pinf k1 ->
  k1_decompress (compressed_bytes k1 P) = Some (4 :: point_bytes k1 P).
Proof.
  intros HP HN. rewrite k1_decompress_eq. apply (decompress_ok k1_curve k1 k1_implements); auto.
  exact k1_x3b.
Qed.

(** No point of secp256k1 has x = 0. *)
Lemma k1_x_nonzero P : w_on k1 P -> P <> pinf k1 -> px k1 P <> 0.
Proof.
  intros HP HN E. rewrite <- (paff_pxy k1 P HN) in HP. apply paff_on_iff in HP.
  rewrite E in HP. apply (seven_nonresidue (py k1 P)). rewrite HP. reflexivity.
Qed.

Section Api.
Variable B : backends.

Theorem k1_genpub prikey : bytes_ok prikey ->
  GenPubkey B prikey K1 =
    if (length prikey =? 32)%nat && (0 <? be2z prikey) && (be2z prikey <? w_n k1)
    then Ret (Some (point_bytes k1 (w_mul k1 (be2z prikey) (w_G k1))), SUCCESS)
    else Ret (None, ECC_PRIKEY_ILLEGAL).
Proof.
  intros Hk. change (GenPubkey B prikey K1) with (genpub_ret (Ret (gen_public_key k1_curve prikey))).
  rewrite (gen_public_key_spec k1_curve k1 k1_implements) by exact Hk.
  destruct (_ && _); reflexivity.
Qed.

Lemma k1_sign_inv prikey ID hash sig v :
  Signature B prikey ID hash K1 = Some (Ret (Some sig, v, SUCCESS)) ->
  ecdsa_sign (bk_drbg B) k1_curve (bk_entropy B) (bk_fuel B) prikey hash = Some (Ok (sig, v)).
Proof.
  change (Signature B prikey ID hash K1) with
    (sign_ret (no_panic (ecdsa_sign (bk_drbg B) k1_curve (bk_entropy B) (bk_fuel B) prikey hash))).
  destruct (ecdsa_sign _ _ _ _ _ _) as [[[sg vv]|e]|]; cbn [no_panic sign_ret]; [|destruct e; discriminate|discriminate].
  intros [= <- <-]. reflexivity.
Qed.

Lemma k1_sign_good prikey ID hash sig v : bytes_ok prikey ->
  Signature B prikey ID hash K1 = Some (Ret (Some sig, v, SUCCESS)) ->
  length prikey = 32%nat /\ length hash = 32%nat /\ 0 < be2z prikey < w_n k1 /\
  exists r s, sig = z2be 32 r ++ z2be 32 s /\ good_sig k1 (be2z prikey) (be2z hash) r s v.
Proof.
  intros Hk H. apply k1_sign_inv in H.
  destruct (ecdsa_sign_spec k1_curve k1 k1_implements _ _ _ _ _ _ _ H) as (L1 & L2 & Hd & R).
  auto.
Qed.

Theorem k1_sign_canonical prikey ID hash sig v : bytes_ok prikey ->
  Signature B prikey ID hash K1 = Some (Ret (Some sig, v, SUCCESS)) -> canonical_sig (w_n k1) sig v.
Proof.
  intros Hk H. destruct (k1_sign_good _ _ _ _ _ Hk H) as (_ & _ & _ & r & s & -> & Hg).
  exact (good_sig_canonical k1_curve k1 k1_implements _ _ _ _ _ Hg).
Qed.

Lemma k1_verify_eq pub ID hash sig :
  Verify B pub ID hash sig K1 = Ret (if ecdsa_verify k1_curve pub hash sig then SUCCESS else FAILURE).
Proof.
  change (Verify B pub ID hash sig K1) with (verify_ret (Ret (ecdsa_verify k1_curve pub hash sig))).
  destruct (ecdsa_verify k1_curve pub hash sig); reflexivity.
Qed.

Theorem k1_sign_verify prikey ID ID' hash sig v pub : bytes_ok prikey ->
  Signature B prikey ID hash K1 = Some (Ret (Some sig, v, SUCCESS)) ->
  GenPubkey B prikey K1 = Ret (Some pub, SUCCESS) ->
  Verify B pub ID' hash sig K1 = Ret SUCCESS.
Proof.
  intros Hk Hs Hp. destruct (k1_sign_good _ _ _ _ _ Hk Hs) as (L1 & L2 & Hd & r & s & -> & Hg).
  rewrite k1_genpub in Hp by exact Hk. destruct (_ && _); [|discriminate]. injection Hp as <-.
  rewrite k1_verify_eq.
  pose proof (ecdsa_verify_spec k1_curve k1 k1_implements (w_mul k1 (be2z prikey) (w_G k1)) hash
    (z2be 32 r ++ z2be 32 s)) as V.
  destruct (ecdsa_verify _ _ _ _); [reflexivity|]. exfalso.
  enough (false = true) by discriminate. apply V.
  - apply mul_on; [exact secp256k1_valid|]. apply (wv_Gon _ secp256k1_valid).
  - pose proof Hg as (k & _ & _ & _ & _ & Br & Bs & _).
    assert (B0 : 0 < 2 ^ 247) by reflexivity.
    destruct (sig_parts r s) as (S1 & S2 & S3); [clear - Br B0; lia|clear - Bs B0; lia|].
    rewrite S2, S3. split; [exact S1|]. split; [exact L2|].
    apply (good_sig_valid k1_curve k1 k1_implements _ _ _ _ v). exact Hg.
Qed.

(** Verification for any 64-byte key that denotes a curve point, whether or not
    its coordinates are reduced. *)
Lemma k1_verify_ecdsa_mod x y hash r s : w_on k1 (paff k1 x y) ->
  verify_ecdsa k1_curve x y hash r s =
  verify_ecdsa k1_curve (px k1 (paff k1 x y)) (py k1 (paff k1 x y)) hash r s.
Proof.
  intros Ho. unfold verify_ecdsa, verify_generic.
  destruct ((r <=? 0) || (s <=? 0)); [reflexivity|].
  destruct ((e_N k1_curve <=? r) || (e_N k1_curve <=? s)); [reflexivity|].
  destruct (mod_inverse s (e_N k1_curve)) as [w|]; [|reflexivity].
  change (e_ScalarMult k1_curve) with k1_scalar_mult.
  rewrite !k1_mul_any; auto using big_bytes_ok.
  - rewrite paff_pxy by discriminate. reflexivity.
  - rewrite paff_pxy by discriminate. exact Ho.
Qed.

Theorem k1_verify_iff pub ID hash sig :
  length pub = 64%nat -> w_on k1 (point_of_bytes k1 pub) ->
  (Verify B pub ID hash sig K1 = Ret SUCCESS <->
   length sig = 64%nat /\ length hash = 32%nat /\
   ecdsa_valid k1 (point_of_bytes k1 pub) (be2z hash) (be2z (firstn 32 sig)) (be2z (skipn 32 sig))).
Proof.
  intros Hl Ho. rewrite k1_verify_eq.
  assert (E : ecdsa_verify k1_curve pub hash sig =
              ecdsa_verify k1_curve (point_bytes k1 (point_of_bytes k1 pub)) hash sig).
  { unfold ecdsa_verify. rewrite Hl, point_bytes_length.
    rewrite (point_bytes_x k1_curve k1 k1_implements), (point_bytes_y k1_curve k1 k1_implements).
    unfold point_of_bytes. rewrite <- k1_verify_ecdsa_mod by exact Ho. reflexivity. }
  rewrite E. clear E. rewrite <- (ecdsa_verify_spec k1_curve k1 k1_implements _ hash sig Ho).
  destruct (ecdsa_verify _ _ _ _); split; intros H; try discriminate; reflexivity.
Qed.

Theorem k1_recover_signed prikey ID hash sig v : bytes_ok prikey -> bytes_ok hash ->
  Signature B prikey ID hash K1 = Some (Ret (Some sig, v, SUCCESS)) ->
  be2z hash mod w_n k1 <> 0 ->
  RecoverPubkey B (sig ++ [v]) hash K1 = GenPubkey B prikey K1.
Proof.
  intros Hk Hh Hs H0. destruct (k1_sign_good _ _ _ _ _ Hk Hs) as (L1 & L2 & Hd & r & s & -> & Hg).
  rewrite k1_genpub by exact Hk. rewrite L1.
  replace (0 <? be2z prikey) with true by (symmetry; apply Z.ltb_lt; apply Hd).
  replace (be2z prikey <? w_n k1) with true by (symmetry; apply Z.ltb_lt; apply Hd).
  cbn [Nat.eqb andb].
  change (RecoverPubkey B ((z2be 32 r ++ z2be 32 s) ++ [v]) hash K1) with
    (recover_ret (recover_public k1_curve k1_decompress ((z2be 32 r ++ z2be 32 s) ++ [v]) hash)).
  rewrite <- app_assoc, k1_decompress_eq.
  rewrite (recover_good k1_curve k1 k1_implements _ k1_x3b (be2z prikey)) by assumption.
  reflexivity.
Qed.

Lemma k1_affine_range p : let '(x, y) := k1_affine p in 0 <= x < 2 ^ 256 /\ 0 <= y < 2 ^ 256.
Proof.
  destruct p as [[x y] z]. unfold k1_affine. rewrite <- k1_Hcp.
  assert (HP : 0 < w_p k1 < 2 ^ 256) by (split; reflexivity).
  destruct (z =? 0); [split; split; try reflexivity; discriminate|].
  destruct (mod_inverse z (w_p k1)); [|split; split; try reflexivity; discriminate].
  generalize dependent (w_p k1). intros q Hq.
  pose proof (Z.mod_pos_bound (x * (z0 * z0)) q (proj1 Hq)) as H1.
  pose proof (Z.mod_pos_bound (y * (z0 * z0 * z0)) q (proj1 Hq)) as H2.
  clear - H1 H2 Hq. split; lia.
Qed.

Lemma marshal_parts x y : 0 <= x < 2 ^ 256 -> 0 <= y < 2 ^ 256 ->
  length (marshal_xy x y) = 64%nat /\
  be2z (firstn 32 (marshal_xy x y)) = x /\ be2z (skipn 32 (marshal_xy x y)) = y.
Proof.
  intros Hx Hy. unfold marshal_xy. rewrite !pad32_big_bytes by assumption.
  rewrite app_length, !z2be_length.
  rewrite firstn_app_len, skipn_app_len by apply z2be_length.
  rewrite !be2z_z2be, pow256_32, !Z.mod_small by assumption. auto.
Qed.

Lemma k1_recover_try_verifies tag s rinv sig hash pub : length sig = 65%nat -> length hash = 32%nat ->
  recover_try k1_curve k1_decompress tag s rinv sig hash = Ret (Some pub) ->
  ecdsa_verify k1_curve pub hash (firstn 64 sig) = true.
Proof.
  intros L1 L2. unfold recover_try. destruct (k1_decompress _); [|discriminate].
  destruct (e_ScalarMult k1_curve _ _ (big_bytes (Z.abs s))) as [x1 y1].
  destruct (e_ScalarBaseMult k1_curve hash) as [x2 y2].
  destruct (e_Add k1_curve _ _ _ _) as [x3 y3].
  change (e_ScalarMult k1_curve) with k1_scalar_mult.
  assert (HR : let '(x, y) := k1_scalar_mult x3 y3 (big_bytes rinv) in 0 <= x < 2 ^ 256 /\ 0 <= y < 2 ^ 256)
    by apply k1_affine_range.
  destruct (k1_scalar_mult x3 y3 (big_bytes rinv)) as [qx qy].
  destruct (verify_ecdsa _ _ _ _ _ _) eqn:EV; [|discriminate]. intros [= <-].
  destruct (marshal_parts qx qy (proj1 HR) (proj2 HR)) as (M1 & M2 & M3).
  unfold ecdsa_verify. rewrite M1, M2, M3, firstn_length, L1, L2.
  cbn [Nat.eqb negb Nat.min].
  rewrite firstn_firstn, skipn_firstn_comm. cbn [Nat.min Nat.sub]. exact EV.
Qed.

Theorem k1_recovered_verifies sig hash ID pub :
  RecoverPubkey B sig hash K1 = Ret (Some pub, SUCCESS) ->
  Verify B pub ID hash (firstn 64 sig) K1 = Ret SUCCESS.
Proof.
  change (RecoverPubkey B sig hash K1) with (recover_ret (recover_public k1_curve k1_decompress sig hash)).
  rewrite k1_verify_eq. unfold recover_public.
  destruct (length sig =? 65)%nat eqn:L1; [|discriminate].
  destruct (length hash =? 32)%nat eqn:L2; [|discriminate]. cbn [negb orb].
  apply Nat.eqb_eq in L1, L2.
  destruct (mod_inverse _ _) as [ri|]; [|discriminate].
  set (s0 := if nth 64 sig 0 =? 1 then _ else 0).
  set (s1 := if nth 64 sig 0 =? 0 then _ else s0). clearbody s0 s1.
  intros H. destruct (recover_try _ _ 2 s0 ri sig hash) as [[p|]|] eqn:E1; [| |discriminate].
  - injection H as <-. rewrite (k1_recover_try_verifies _ _ _ _ _ _ L1 L2 E1). reflexivity.
  - destruct (recover_try _ _ 3 s1 ri sig hash) as [[p|]|] eqn:E2; [|discriminate|discriminate].
    injection H as <-. rewrite (k1_recover_try_verifies _ _ _ _ _ _ L1 L2 E2). reflexivity.
Qed.

Theorem k1_recover_no_panic sig hash :
  be2z (firstn 32 sig) mod w_n k1 <> 0 -> RecoverPubkey B sig hash K1 <> Panic.
Proof.
  intros Hr. change (RecoverPubkey B sig hash K1) with (recover_ret (recover_public k1_curve k1_decompress sig hash)).
  pose proof (recover_no_panic k1_curve k1 k1_implements (fun x => x * x * x + k1_B) sig hash Hr) as H.
  rewrite <- k1_decompress_eq in H.
  destruct (recover_public _ _ _ _) as [[p|]|]; [discriminate|discriminate|]. exfalso. apply H. reflexivity.
Qed.

Theorem k1_recover_panics s v hash : length s = 32%nat -> length hash = 32%nat ->
  RecoverPubkey B (repeat 0 32 ++ s ++ [v]) hash K1 = Panic.
Proof.
  intros Hs Hh.
  change (RecoverPubkey B (repeat 0 32 ++ s ++ [v]) hash K1) with
    (recover_ret (recover_public k1_curve k1_decompress (repeat 0 32 ++ s ++ [v]) hash)).
  unfold recover_public. rewrite !app_length, repeat_length, Hs, Hh. cbn [length Nat.add Nat.eqb negb orb].
  rewrite firstn_app_len by apply repeat_length.
  rewrite mod_inverse_none; [reflexivity|exact prime_k1n|reflexivity].
Qed.

(** Compression. *)
Lemma comp_length P : length (compressed_bytes k1 P) = 33%nat.
Proof. unfold compressed_bytes. cbn [length]. rewrite z2be_length. reflexivity. Qed.

Lemma k1_pd b : length b = 33%nat -> PointDecompress B b K1 = Ret (k1_decompress b).
Proof. intros H. unfold PointDecompress. rewrite H. reflexivity. Qed.

Theorem k1_roundtrip P : w_on k1 P -> P <> pinf k1 ->
  exists cb, PointCompress (Some (point_bytes k1 P)) K1 = Some cb /\
             PointCompress (Some (4 :: point_bytes k1 P)) K1 = Some cb /\
             PointDecompress B cb K1 = Ret (Some (4 :: point_bytes k1 P)).
Proof.
  intros HP HN. exists (compressed_bytes k1 P).
  destruct (compress_ok k1_curve k1 k1_implements P K1) as [C1 C2]; [auto|].
  split; [exact C1|]. split; [exact C2|].
  rewrite k1_pd by apply comp_length. rewrite k1_decompress_ok by assumption. reflexivity.
Qed.

(** Decompression of any 33 bytes with tag 02 or 03: when x^3 + 7 is a square
    the result is the point with that x-coordinate and parity. *)
Theorem k1_decompress_sound tag xs y : tag = 2 \/ tag = 3 -> bytes_ok xs -> length xs = 32%nat ->
  (y * y) mod w_p k1 = (be2z xs * be2z xs * be2z xs + 7) mod w_p k1 ->
  exists ys, PointDecompress B (tag :: xs) K1 = Ret (Some (4 :: xs ++ ys)) /\
    length ys = 32%nat /\
    w_on k1 (point_of_bytes k1 (xs ++ ys)) /\ be2z ys mod 2 = tag - 2.
Proof.
  intros Ht Hx Hl Hy. rewrite k1_pd by (cbn [length]; rewrite Hl; reflexivity).
  rewrite k1_decompress_eq. unfold ec_decompress. cbn [length]. rewrite Hl. cbn [Nat.eqb negb orb].
  replace (negb (tag =? 2) && negb (tag =? 3)) with false by (destruct Ht as [-> | ->]; reflexivity).
  set (x := be2z xs) in *.
  assert (H4 : w_p k1 mod 4 = 3) by reflexivity.
  destruct (mod_sqrt34_complete ((x * x * x + k1_B) mod w_p k1) (w_p k1) y prime_k1p H4) as [y0 E0].
  { rewrite Zmod_mod. exact Hy. }
  rewrite E0. destruct (mod_sqrt34_some _ (w_p k1) y0 ltac:(reflexivity) E0) as [By Ey].
  rewrite Zmod_mod in Ey. clear E0.
  set (yb := if tag =? 2 then 0 else 1).
  assert (Hyb : yb = tag - 2 /\ (yb = 0 \/ yb = 1)) by (unfold yb; destruct Ht as [-> | ->]; cbn; auto).
  clearbody yb. destruct Hyb as [Hyb1 Hyb].
  assert (F : forall y1, 0 <= y1 <= w_p k1 -> (y1 * y1) mod w_p k1 = (x * x * x + k1_B) mod w_p k1 -> y1 mod 2 = yb ->
    exists ys, Ret (Some (4 :: xs ++ pad32 (big_bytes y1))) = Ret (Some (4 :: xs ++ ys)) /\
      length ys = 32%nat /\ w_on k1 (point_of_bytes k1 (xs ++ ys)) /\ be2z ys mod 2 = tag - 2).
  { intros y1 B1 E1 P1. exists (z2be 32 y1).
    assert (HP : w_p k1 < 2 ^ 256) by reflexivity.
    rewrite pad32_big_bytes by (clear - B1 HP; lia).
    split; [reflexivity|]. split; [apply z2be_length|].
    assert (Ez : be2z (z2be 32 y1) = y1).
    { rewrite be2z_z2be, pow256_32. apply Z.mod_small. clear - B1 HP; lia. }
    split.
    - unfold point_of_bytes. rewrite firstn_app_len, skipn_app_len, Ez by exact Hl. fold x.
      apply paff_on_iff. rewrite E1. apply k1_x3b.
    - rewrite Ez, P1. exact Hyb1. }
  destruct (y0 mod 2 =? yb) eqn:E1.
  - rewrite E1. apply Z.eqb_eq in E1. apply F; [clear - By; lia|exact Ey|exact E1].
  - apply Z.eqb_neq in E1.
    assert (E2 : (w_p k1 - y0) mod 2 = yb) by (clear - E1 Hyb H4; lia).
    rewrite E2, Z.eqb_refl. apply F; [clear - By; lia| |exact E2].
    rewrite <- Ey. replace ((w_p k1 - y0) * (w_p k1 - y0)) with (y0 * y0 + (w_p k1 - 2 * y0) * w_p k1) by ring.
    apply Z_mod_plus_full.
Qed.

(** ... and otherwise the result is not on the curve. *)
Theorem k1_decompress_zero : PointDecompress B (2 :: repeat 0 32) K1 = Ret (Some (4 :: repeat 0 64)).
Proof.
  rewrite k1_pd by reflexivity. rewrite k1_decompress_eq. unfold ec_decompress.
  cbn [length repeat Nat.eqb negb orb andb Z.eqb Pos.eqb].
  assert (E : mod_sqrt34 ((be2z (repeat 0 32) * be2z (repeat 0 32) * be2z (repeat 0 32) + k1_B) mod w_p k1) (w_p k1) = None).
  { change (be2z (repeat 0 32)) with 0.
    destruct (mod_sqrt34 _ _) as [y|] eqn:E; [|reflexivity]. exfalso.
    apply mod_sqrt34_some in E; [|reflexivity]. destruct E as [_ E]. rewrite Zmod_mod in E.
    apply (seven_nonresidue y). exact E. }
  cbn [repeat] in E. rewrite E. reflexivity.
Qed.

Theorem k1_zero_off_curve : ~ w_on k1 (point_of_bytes k1 (repeat 0 64)).
Proof. intros H. apply paff_on_iff in H. vm_compute in H. discriminate. Qed.

(** Point functions. *)
Lemma k1_arg P b : w_on k1 P -> P <> pinf k1 -> encodes k1 P b ->
  point_arg B b K1 = Ret (Some (point_bytes k1 P)).
Proof.
  intros HP HN He. apply point_arg_ok; auto.
  rewrite k1_pd by apply comp_length. rewrite k1_decompress_ok by assumption. reflexivity.
Qed.

Theorem k1_point_add P Q bp bq :
  w_on k1 P -> w_on k1 Q -> P <> pinf k1 -> Q <> pinf k1 -> encodes k1 P bp -> encodes k1 Q bq ->
  let S := w_add k1 P Q in
  (S = pinf k1 -> Point_add B bp bq K1 = Ret (None, FAILURE)) /\
  (S <> pinf k1 -> Point_add B bp bq K1 = Ret (Some (point_bytes k1 S), SUCCESS)).
Proof.
  intros HP HQ NP NQ EP EQ S.
  assert (A : Point_add B bp bq K1 = inf_ret (point_add k1_curve (point_bytes k1 P) (point_bytes k1 Q))).
  { unfold Point_add. change (K1 =? ECC_CURVE_ED25519) with false. cbv iota.
    rewrite (k1_arg P bp), (k1_arg Q bq) by assumption. reflexivity. }
  rewrite A, (point_add_spec k1_curve k1 k1_implements) by assumption. cbn zeta. fold S.
  assert (HS : w_on k1 S) by (apply add_on; auto; exact secp256k1_valid).
  split; intros H.
  - rewrite H. reflexivity.
  - pose proof (k1_x_nonzero S HS H) as Hx. apply Z.eqb_neq in Hx. rewrite Hx. reflexivity.
Qed.

Theorem k1_point_mul P bp k :
  w_on k1 P -> P <> pinf k1 -> encodes k1 P bp -> bytes_ok k -> length k = 32%nat ->
  let S := w_mul k1 (be2z k) P in
  (S = pinf k1 -> Point_mul B bp k K1 = Ret (None, FAILURE)) /\
  (S <> pinf k1 -> Point_mul B bp k K1 = Ret (Some (point_bytes k1 S), SUCCESS)).
Proof.
  intros HP NP EP Hk Lk S.
  assert (A : Point_mul B bp k K1 = inf_ret (point_mul k1_curve (point_bytes k1 P) k)).
  { unfold Point_mul. change (K1 =? ECC_CURVE_ED25519) with false. cbv iota.
    rewrite (k1_arg P bp), Lk by assumption. reflexivity. }
  rewrite A. destruct (point_mul_spec k1_curve k1 k1_implements P k HP Hk) as [M1 M2]. fold S in M1, M2.
  split; intros H; [rewrite (M1 H)|rewrite (M2 H)]; reflexivity.
Qed.

Theorem k1_mulbaseg_add P k : w_on k1 P -> bytes_ok k -> length k = 32%nat ->
  let S := w_add k1 (w_mul k1 (be2z k) (w_G k1)) P in
  (S = pinf k1 -> Point_mulBaseG_add B (point_bytes k1 P) k K1 = Ret (None, true)) /\
  (S <> pinf k1 -> Point_mulBaseG_add B (point_bytes k1 P) k K1 = Ret (Some (point_bytes k1 S), false)).
Proof.
  intros HP Hk Lk S.
  assert (A : Point_mulBaseG_add B (point_bytes k1 P) k K1 = mul_baseg_add k1_curve (point_bytes k1 P) k).
  { unfold Point_mulBaseG_add. rewrite Lk. reflexivity. }
  rewrite A. apply (mul_baseg_add_spec k1_curve k1 k1_implements); assumption.
Qed.

Theorem k1_homomorphic a b pub : bytes_ok a -> bytes_ok b -> length b = 32%nat ->
  GenPubkey B a K1 = Ret (Some pub, SUCCESS) ->
  let s := (be2z a + be2z b) mod w_n k1 in
  (s <> 0 -> exists p, Point_mulBaseG_add B pub b K1 = Ret (Some p, false) /\
                       GenPubkey B (z2be 32 s) K1 = Ret (Some p, SUCCESS)) /\
  (s = 0 -> Point_mulBaseG_add B pub b K1 = Ret (None, true)).
Proof.
  intros Ha Hb Lb Hp s. rewrite k1_genpub in Hp by exact Ha. destruct (_ && _); [|discriminate].
  injection Hp as <-.
  assert (GO : w_on k1 (w_G k1)) by apply (wv_Gon _ secp256k1_valid).
  destruct (k1_mulbaseg_add (w_mul k1 (be2z a) (w_G k1)) b) as [M1 M2];
    [apply mul_on; [exact secp256k1_valid|exact GO]|exact Hb|exact Lb|].
  assert (ES : w_add k1 (w_mul k1 (be2z b) (w_G k1)) (w_mul k1 (be2z a) (w_G k1)) = w_mul k1 s (w_G k1)).
  { rewrite (mulG_add k1 secp256k1_valid). symmetry. unfold s. rewrite (mulG_mod k1 secp256k1_valid).
    f_equal. ring. }
  rewrite ES in M1, M2.
  assert (Hn : 0 < w_n k1 < 2 ^ 256) by (split; reflexivity).
  assert (Bs : 0 <= s < w_n k1) by (apply Z.mod_pos_bound; apply Hn).
  assert (Es : be2z (z2be 32 s) = s)
    by (rewrite be2z_z2be, pow256_32; apply Z.mod_small; clear - Bs Hn; lia).
  split; intros H0.
  - exists (point_bytes k1 (w_mul k1 s (w_G k1))). split.
    + apply M2. intros E. apply (mulG_inf k1 secp256k1_valid) in E. rewrite Z.mod_small in E by exact Bs. contradiction.
    + rewrite k1_genpub by apply z2be_ok. rewrite z2be_length, Es.
      replace (0 <? s) with true by (symmetry; apply Z.ltb_lt; clear - Bs H0; lia).
      replace (s <? w_n k1) with true by (symmetry; apply Z.ltb_lt; apply Bs). reflexivity.
  - apply M1. rewrite H0. reflexivity.
Qed.

End Api.
