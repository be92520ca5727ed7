(** Beside C46: a signature that meets the hypotheses of C46_pasta_roundtrip_partial. *)
Require Import ZArith List Bool Lia.
Require Import Verif.Base Verif.Fp Verif.Weier Verif.EC Verif.Curves Verif.SpecECDSA Verif.SpecPasta Verif.Primes Verif.ModelApi Verif.ProofECDSA.
Require Import Verif.ModelPastaCode Verif.ProofPastaF Verif.ModelPasta Verif.ProofPastaG Verif.ProofPastaH Verif.ProofPastaI Verif.ProofPastaP Verif.ProofPastaS Verif.PropsPasta Verif.ProofPastaEx.
Import ListNotations.
Open Scope Z_scope.

Lemma fe_1 : fe FieldOne = fp_of pp 1. Proof. apply fp_eq. vm_compute. reflexivity. Qed.
Lemma fe_0 : fe zero4 = fp_of pp 0. Proof. apply fp_eq. vm_compute. reflexivity. Qed.
Lemma Gx_1 : px pallas (w_G pallas) = 1. Proof. vm_compute. reflexivity. Qed.
Lemma gy_G : py pallas (w_G pallas) = gy. Proof. vm_compute. reflexivity. Qed.
Lemma e1_ok : mina_challenge demo_msg (w_G pallas) 1 = e1.
Proof.
  unfold mina_challenge, challenge, mina_hash. cbn [demo_msg m_prefix m_suffix m_iv map app].
  rewrite fe_1, fe_0, Gx_1, gy_G. exact hash_fin.
Qed.

(** key 1, nonce 1 *)
Definition one_rnd (i : nat) : bytes := z2be 32 1.
Definition one_pasta (B : backends) : backends :=
  {| bk_drbg := bk_drbg B; bk_entropy := bk_entropy B; bk_rand := bk_rand B; bk_fuel := 5; bk_r1 := bk_r1 B;
     bk_ed_normal := bk_ed_normal B; bk_ed := bk_ed B; bk_x := bk_x B;
     bk_sha256 := bk_sha256 B; bk_ed_baseadd := bk_ed_baseadd B; bk_ed_add := bk_ed_add B;
     bk_bls := bk_bls B; bk_bls_baseadd := bk_bls_baseadd B; bk_bls_aggregate := bk_bls_aggregate B;
     bk_pasta := pasta_pkg demo_json one_rnd 5;
     bk_pasta_baseadd := fun p s => fuel_o (pasta_PointMulBaseGAdd p s); bk_pasta_add := fun p q => fuel_o (pasta_PointAdd p q);
     bk_pasta_mul := fun p s => fuel_o (pasta_PointMul p s); bk_pasta_decompress := fun p => fuel_o (pasta_PointDecompress p) |}.
Lemma one_runs B : runs_pasta demo_json one_rnd (one_pasta B). Proof. split; [reflexivity|]. repeat split. Qed.
Lemma one_rnd_ok : rand_ok one_rnd. Proof. intros i. split; [apply z2be_ok | apply z2be_length]. Qed.
Lemma one_key : pasta_key (z2be 32 1).
Proof. split; [apply z2be_ok|]. split; [apply z2be_length|]. rewrite be2z_z2be. reflexivity. Qed.
Lemma be_one : be2z (z2be 32 1) = 1. Proof. rewrite be2z_z2be. reflexivity. Qed.
Lemma one_nonce k : is_nonce one_rnd k -> k = 1.
Proof. intros (i & -> & _). unfold one_rnd. rewrite be_one. reflexivity. Qed.
Lemma mulG_1 : w_mul pallas 1 (w_G pallas) = w_G pallas. Proof. apply mul_1. exact G_on. Qed.
Lemma x_not_1 s : (2 * s - 1) mod qq <> 0 -> (2 * s + 1) mod qq <> 0 -> px pallas (w_mul pallas (2 * s) (w_G pallas)) <> 1.
Proof.
  intros N1 N2 E. assert (HG : w_G pallas <> pinf pallas) by discriminate.
  assert (O : w_on pallas (w_mul pallas (2 * s) (w_G pallas))) by (apply mul_on; exact G_on).
  assert (NI : w_mul pallas (2 * s) (w_G pallas) <> pinf pallas). { intros C. rewrite C in E. discriminate E. }
  rewrite <- Gx_1 in E.
  assert (D : forall j, w_mul pallas (2 * s) (w_G pallas) = w_mul pallas j (w_G pallas) -> (2 * s - j) mod qq = 0).
  { intros j H. apply mul_inj in H; [|exact G_on | exact HG]. rewrite Zminus_mod, H, Z.sub_diag. reflexivity. }
  destruct (ProofECDSA.same_x pallas pallas_valid _ _ O G_on NI HG E) as [H|H].
  - apply N1, D. rewrite mulG_1. exact H.
  - apply N2. replace (2 * s + 1) with (2 * s - -1) by ring. apply D. rewrite H, (mul_neg 1) by exact G_on. rewrite mulG_1. reflexivity.
Qed.
Lemma sig_eq m d k : mina_signature m d k = z2be 32 (px pallas (w_mul pallas k (w_G pallas))) ++
  z2be 32 (((if Z.odd (py pallas (w_mul pallas k (w_G pallas))) then - k else k) + mina_challenge m (w_mul pallas d (w_G pallas)) (px pallas (w_mul pallas k (w_G pallas))) * d) mod qq).
Proof. reflexivity. Qed.
Lemma sig_one : mina_signature demo_msg 1 1 = z2be 32 1 ++ z2be 32 (((if Z.odd gy then -1 else 1) + e1 * 1) mod qq).
Proof. rewrite sig_eq, mulG_1, Gx_1, e1_ok. reflexivity. Qed.
Example C46_roundtrip_met B :
  runs_pasta demo_json one_rnd (one_pasta B) /\ rand_ok one_rnd /\ pasta_key (z2be 32 1) /\ mina_msg demo_json [1; 2] demo_msg /\
  exists sig, Signature (one_pasta B) (z2be 32 1) None [1; 2] ECC_CURVE_PASTA = Some (Ret (Some sig, 0, SUCCESS)) /\
  px pallas (w_mul pallas (2 * be2z (skipn 32 sig)) (w_G pallas)) <> be2z (firstn 32 sig).
Proof.
  split; [apply one_runs|]. split; [apply one_rnd_ok|]. split; [apply one_key|]. split; [apply demo_msg_ok|].
  pose proof (C46_pasta_sign demo_json one_rnd (one_pasta B) (z2be 32 1) None [1; 2] demo_msg (one_runs B) one_rnd_ok one_key demo_msg_ok) as K.
  destruct (Signature (one_pasta B) (z2be 32 1) None [1; 2] ECC_CURVE_PASTA) as [r|].
  - destruct K as (k & Hk & ->). apply one_nonce in Hk. subst k. eexists. split; [reflexivity|].
    assert (E : exists s, mina_signature demo_msg (be2z (z2be 32 1)) 1 = z2be 32 1 ++ z2be 32 s /\ 0 <= s < 2 ^ 256 /\ (2 * s - 1) mod qq <> 0 /\ (2 * s + 1) mod qq <> 0).
    { rewrite be_one, sig_one. eexists. split; [reflexivity|]. vm_compute. repeat split; discriminate. }
    destruct E as (s & -> & Bs & N1 & N2). rewrite firstn_z2be, skipn_z2be, be_one, be2z_z2be, Z.mod_small by exact Bs.
    apply x_not_1; assumption.
  - exfalso. specialize (K 0%nat ltac:(cbn; lia)). unfold one_rnd in K. rewrite be_one in K. discriminate K.
Qed.
Print Assumptions C46_roundtrip_met.
