(** SM2: concrete runs assembled from the computations of ProofSM2W.v. *)
From Coq Require Import ZArith List Lia Znumtheory Bool.
From Verif Require Import Base Words EC Curves Group Primes ModelECDSA SpecECDSA ProofECDSA ProofECDSA2 ProofECDSA3 ProofK1Wit
  SpecSM3 ModelSM3 ProofSM3 SpecSM2 ModelSM2F ModelSM2P ProofSM2P ProofSM2L ModelSM2S ProofSM2S ProofSM2E ModelApi ProofSM2A ProofSM2W PropsK1.
Import ListNotations.
Open Scope Z_scope.

(** A backend whose generators deliver given blocks. *)
Definition sm2_demo (block : bytes) : backends :=
  {| bk_drbg := fun _ _ => block; bk_entropy := Some []; bk_fuel := 1;
     bk_rand := fun _ => Some block; bk_r1 := bk_r1 demo_B;
     bk_ed_normal := bk_ed_normal demo_B; bk_ed := bk_ed demo_B; bk_x := bk_x demo_B; bk_sha256 := bk_sha256 demo_B;
     bk_ed_baseadd := bk_ed_baseadd demo_B; bk_ed_add := bk_ed_add demo_B;
     bk_bls := bk_bls demo_B; bk_bls_baseadd := bk_bls_baseadd demo_B; bk_bls_aggregate := bk_bls_aggregate demo_B;
     bk_pasta := bk_pasta demo_B; bk_pasta_baseadd := bk_pasta_baseadd demo_B; bk_pasta_add := bk_pasta_add demo_B;
     bk_pasta_mul := bk_pasta_mul demo_B; bk_pasta_decompress := bk_pasta_decompress demo_B |}.

Lemma key1_legal : legal_key sm2p256 key1.
Proof. split; [repeat constructor; (discriminate || reflexivity)|]. split; [reflexivity|]. split; reflexivity. Qed.
Lemma key2_legal : legal_key sm2p256 key2.
Proof. split; [repeat constructor; (discriminate || reflexivity)|]. split; [reflexivity|]. split; reflexivity. Qed.

Lemma genpub_key1 B : GenPubkey B key1 SM2 = Ret (Some (point_bytes sm2p256 (w_G sm2p256)), SUCCESS).
Proof.
  rewrite (genpub_eq sm2p256 sm2_is B key1 key1_legal), base_key1. vm_compute. reflexivity.
Qed.
Lemma genpub_key2 B : GenPubkey B key2 SM2 = Ret (Some (point_bytes sm2p256 (w_mul sm2p256 2 (w_G sm2p256))), SUCCESS).
Proof.
  rewrite (genpub_eq sm2p256 sm2_is B key2 key2_legal), base_key2, sm2_2G. vm_compute. reflexivity.
Qed.

(** The nonce 1 and a hash chosen so that r + k = N: every private key but N - 1
    produces the same signature. *)
Definition bad_hash : bytes := z2be 32 (sm2_N - 1 - sm2_Gx).
Definition bad_sig : bytes := z2be 32 (sm2_N - 1) ++ z2be 32 1.

Lemma inv_cancel (N d inv : Z) : 2 < N -> ((d + 1) * inv) mod N = 1 -> ((1 - d * (N - 1)) * inv) mod N = 1.
Proof.
  intros HN Hi. replace ((1 - d * (N - 1)) * inv) with ((d + 1) * inv + (- d * inv) * N) by ring.
  rewrite Z_mod_plus_full. exact Hi.
Qed.

Lemma bad_loop d : 0 < d < sm2_N - 1 ->
  fst (sm2_sign_loop d (sm2_N - 1 - sm2_Gx) (fun _ => []) 1 0) = Some (Ret (sm2_N - 1, 1, sm2_Gy mod 2)).
Proof.
  intros Hd. cbn [sm2_sign_loop]. cbv zeta.
  change (rand_field_element sm2_N []) with 1. change (big_bytes 1) with [1].
  rewrite fst_bind, base_1. cbn [fst snd].
  replace (sm2_Gx + (sm2_N - 1 - sm2_Gx)) with (sm2_N - 1) by ring.
  assert (E : (sm2_N - 1) mod sm2_N = sm2_N - 1) by reflexivity. rewrite E.
  change (negb (sm2_N - 1 =? 0) || (sm2_N - 1 + 1 =? sm2_N)) with true. cbv iota.
  assert (HN : prime sm2_N) by exact (wv_nprime _ sm2p256_valid).
  assert (H2 : 2 < sm2_N) by reflexivity.
  destruct (mod_inverse_prime (d + 1) sm2_N HN) as [inv Hi].
  { rewrite Z.mod_small by (clear - Hd; generalize dependent sm2_N; intros; lia). clear - Hd; lia. }
  rewrite Hi. destruct (mod_inverse_some (d + 1) sm2_N inv ltac:(reflexivity) Hi) as [_ Ei].
  rewrite (inv_cancel sm2_N d inv H2 Ei). reflexivity.
Qed.

Lemma bad_sign prikey : legal_key sm2p256 prikey -> be2z prikey <> sm2_N - 1 ->
  Signature (sm2_demo []) prikey None bad_hash SM2 = Some (Ret (Some bad_sig, sm2_Gy mod 2, SUCCESS)).
Proof.
  intros (Hk & HL & Hd) Hne.
  change (Signature (sm2_demo []) prikey None bad_hash SM2) with
    (sign_ret (fst (sm2_sign (fun _ _ => []) (Some []) 1 prikey None bad_hash))).
  unfold sm2_sign. rewrite HL. change (length bad_hash) with 32%nat. cbn [Nat.eqb negb].
  assert (Hd' : 0 < be2z prikey < sm2_N - 1).
  { change (w_n sm2p256) with sm2_N in Hd. clear - Hd Hne. generalize dependent sm2_N. intros; lia. }
  replace (be2z prikey =? 0) with false by (symmetry; apply Z.eqb_neq; clear - Hd'; lia).
  replace (sm2_N <=? be2z prikey) with false by (symmetry; apply Z.leb_gt; clear - Hd'; generalize dependent sm2_N; intros; lia).
  run Q. cbn [sm2_e]. change (length bad_hash) with 32%nat. cbn [Nat.eqb negb].
  assert (Eh : be2z bad_hash = sm2_N - 1 - sm2_Gx) by (vm_compute; reflexivity). rewrite Eh.
  rewrite fst_bind, (bad_loop _ Hd'). reflexivity.
Qed.
Lemma bad_rejected pub : length pub = 64%nat -> fst (sm2_verify pub None bad_hash bad_sig) = false.
Proof.
  intros L. unfold sm2_verify. rewrite L. change (length bad_sig) with 64%nat. change (length bad_hash) with 32%nat.
  cbn [Nat.eqb negb].
  assert (E1 : be2z (firstn 32 bad_sig) = sm2_N - 1) by (vm_compute; reflexivity).
  assert (E2 : be2z (skipn 32 bad_sig) = 1) by (vm_compute; reflexivity). rewrite E1, E2.
  unfold sm2_std_verify. cbn [sm2_e]. change (length bad_hash) with 32%nat. cbn [Nat.eqb negb]. reflexivity.
Qed.

(** The private key N - 1: its inverse does not exist. *)
Definition last_key : bytes := z2be 32 (sm2_N - 1).
Lemma last_legal : legal_key sm2p256 last_key.
Proof. split; [apply z2be_ok|]. split; [apply z2be_length|]. split; vm_compute; reflexivity. Qed.
Lemma last_panics : Signature (sm2_demo []) last_key None (repeat 0 32) SM2 = Some Panic.
Proof.
  change (Signature (sm2_demo []) last_key None (repeat 0 32) SM2) with
    (sign_ret (fst (sm2_sign (fun _ _ => []) (Some []) 1 last_key None (repeat 0 32)))).
  unfold sm2_sign. change (length last_key) with 32%nat. change (length (repeat 0 32)) with 32%nat. cbn [Nat.eqb negb].
  assert (E : be2z last_key = sm2_N - 1) by (vm_compute; reflexivity). rewrite E.
  change (sm2_N - 1 =? 0) with false. change (sm2_N <=? sm2_N - 1) with false. cbv iota.
  run Q. cbn [sm2_e]. change (length (repeat 0 32)) with 32%nat. cbn [Nat.eqb negb].
  change (be2z (repeat 0 32)) with 0. rewrite fst_bind.
  cbn [sm2_sign_loop]. cbv zeta. change (rand_field_element sm2_N []) with 1. change (big_bytes 1) with [1].
  rewrite fst_bind, base_1. cbn [fst snd]. rewrite Z.add_0_r.
  change (sm2_Gx mod sm2_N) with sm2_Gx. change (negb (sm2_Gx =? 0) || (sm2_Gx + 1 =? sm2_N)) with true. cbv iota.
  rewrite mod_inverse_none; [reflexivity|exact (wv_nprime _ sm2p256_valid)|reflexivity].
Qed.

(** A regular signature: key 1, nonce 3, r = N - 1, s = 2. *)
Definition ok_hash : bytes := z2be 32 ((sm2_N - 1 - sm2_3Gx) mod sm2_N).
Definition ok_sig : bytes := z2be 32 (sm2_N - 1) ++ z2be 32 2.
Definition half_N : Z := 0x7fffffff7fffffffffffffffffffffffb901efb590e30295a9ddfa049ceaa092.
Lemma ok_inv : mod_inverse (1 + 1) sm2_N = Some half_N.
Proof.
  assert (E : ((1 + 1) * half_N) mod sm2_N = 1) by (vm_compute; reflexivity).
  assert (L : 0 <= half_N < sm2_N) by (split; vm_compute; congruence).
  exact (mod_inverse_cert (1 + 1) sm2_N half_N (wv_nprime _ sm2p256_valid) L E).
Qed.
Lemma ok_sm2_sign : sm2_sign (fun _ _ => [2]) (Some []) 1 key1 None ok_hash =
  (Some (Ret (Ok (ok_sig, sm2_3Gy mod 2))), true).
Proof.
  unfold sm2_sign. change (length key1) with 32%nat. change (length ok_hash) with 32%nat. cbn [Nat.eqb negb].
  change (be2z key1) with 1. change (1 =? 0) with false. change (sm2_N <=? 1) with false. cbv iota zeta.
  rewrite base_key1. unfold bind at 1. cbn [sm2_e fst snd]. change (length ok_hash) with 32%nat. cbn [Nat.eqb negb].
  assert (Eh : be2z ok_hash = (sm2_N - 1 - sm2_3Gx) mod sm2_N) by (vm_compute; reflexivity). rewrite Eh.
  cbn [sm2_sign_loop]. cbv zeta. change (rand_field_element sm2_N [2]) with 3. change (big_bytes 3) with [3].
  rewrite base_3. unfold bind at 2. cbn [fst snd]. rewrite ok_inv.
  assert (Er : (sm2_3Gx + (sm2_N - 1 - sm2_3Gx) mod sm2_N) mod sm2_N = sm2_N - 1) by (vm_compute; reflexivity). rewrite Er.
  change (negb (sm2_N - 1 =? 0) || (sm2_N - 1 + 3 =? sm2_N)) with true. cbv iota.
  assert (Es : ((3 - 1 * (sm2_N - 1)) * (half_N)) mod sm2_N = 2) by (vm_compute; reflexivity). rewrite Es.
  vm_compute. reflexivity.
Qed.
Lemma ok_sm2_verify : sm2_verify (point_bytes sm2p256 (w_G sm2p256)) None ok_hash ok_sig = (true, true).
Proof.
  unfold sm2_verify. change (length (point_bytes sm2p256 (w_G sm2p256))) with 64%nat.
  change (length ok_sig) with 64%nat. change (length ok_hash) with 32%nat. cbn [Nat.eqb negb].
  assert (E1 : be2z (firstn 32 ok_sig) = sm2_N - 1) by (vm_compute; reflexivity).
  assert (E2 : be2z (skipn 32 ok_sig) = 2) by (vm_compute; reflexivity). rewrite E1, E2.
  assert (Ex : be2z (firstn 32 (point_bytes sm2p256 (w_G sm2p256))) = sm2_Gx) by (vm_compute; reflexivity).
  assert (Ey : be2z (skipn 32 (point_bytes sm2p256 (w_G sm2p256))) = sm2_Gy) by (vm_compute; reflexivity). rewrite Ex, Ey.
  unfold sm2_std_verify. cbn [sm2_e]. change (length ok_hash) with 32%nat. cbn [Nat.eqb negb].
  assert (Eh : be2z ok_hash = (sm2_N - 1 - sm2_3Gx) mod sm2_N) by (vm_compute; reflexivity). rewrite Eh.
  change ((sm2_N - 1 <=? 0) || (2 <=? 0)) with false. change ((sm2_N <=? sm2_N - 1) || (sm2_N <=? 2)) with false. cbv iota zeta.
  change ((sm2_N - 1 + 2) mod sm2_N) with 1. change (1 =? 0) with false. cbv iota.
  change (big_bytes 2) with [2]. change (big_bytes 1) with [1].
  rewrite base_2, mult_1. unfold bind. cbn [fst snd]. rewrite add_2_1. vm_compute. reflexivity.
Qed.

(** Encryption and decryption with key 1 and nonce 1. *)
Definition ok_cipher : bytes :=
  match fst (let x := z2be 32 sm2_Gx in let y := z2be 32 sm2_Gy in
             ([4] ++ x ++ y ++ Sm3Sum (x ++ [7] ++ y) ++ xor_bytes (fst (sm2_kdf x y 1)) [7], tt)) with l => l end.
Lemma ok_encrypt : sm2_encrypt (fun _ => Some []) 1 (point_bytes sm2p256 (w_G sm2p256)) [7] = (Some (Ret (Ok ok_cipher)), true).
Proof.
  unfold sm2_encrypt. change (length (point_bytes sm2p256 (w_G sm2p256))) with 64%nat. cbn [Nat.eqb negb length].
  assert (Ex : be2z (firstn 32 (point_bytes sm2p256 (w_G sm2p256))) = sm2_Gx) by (vm_compute; reflexivity).
  assert (Ey : be2z (skipn 32 (point_bytes sm2p256 (w_G sm2p256))) = sm2_Gy) by (vm_compute; reflexivity). rewrite Ex, Ey.
  cbn [sm2_encrypt_loop]. change (rand_field_element sm2_N []) with 1. cbv zeta. change (big_bytes 1) with [1].
  rewrite base_1, mult_1. unfold bind. cbn [fst snd length].
  assert (P1 : pad32 (big_bytes sm2_Gx) = z2be 32 sm2_Gx) by (vm_compute; reflexivity).
  assert (P2 : pad32 (big_bytes sm2_Gy) = z2be 32 sm2_Gy) by (vm_compute; reflexivity). rewrite P1, P2.
  assert (K : snd (sm2_kdf (z2be 32 sm2_Gx) (z2be 32 sm2_Gy) 1) = true) by (vm_compute; reflexivity).
  unfold ok_cipher. cbv zeta. cbn [fst].
  destruct (sm2_kdf (z2be 32 sm2_Gx) (z2be 32 sm2_Gy) 1) as [ck ok]. cbn [fst snd] in *. subst ok. reflexivity.
Qed.
Lemma ok_decrypt : snd (sm2_decrypt key1 ok_cipher) = true.
Proof.
  unfold sm2_decrypt. change (length key1) with 32%nat. cbn [Nat.eqb negb].
  change (be2z key1) with 1. change (sm2_N <=? 1) with false. cbv iota zeta.
  replace (length ok_cipher =? 0)%nat with false by reflexivity.
  rewrite base_key1. unfold bind at 1.
  unfold ok_cipher at 1. cbv zeta. cbn [fst]. cbn [app]. unfold sm2_std_decrypt.
  set (h := Sm3Sum (z2be 32 sm2_Gx ++ 7 :: z2be 32 sm2_Gy)).
  set (bd := xor_bytes (fst (sm2_kdf (z2be 32 sm2_Gx) (z2be 32 sm2_Gy) 1)) [7]).
  assert (Lh : length h = 32%nat) by apply Sm3Sum_length.
  assert (Lb : length bd = 1%nat).
  { unfold bd. rewrite xor_bytes_length, kdf_length. reflexivity. }
  clearbody h bd.
  assert (L : length (z2be 32 sm2_Gx ++ z2be 32 sm2_Gy ++ h ++ bd) = 97%nat).
  { rewrite !app_length, !z2be_length, Lh, Lb. reflexivity. }
  rewrite L. cbn [Nat.ltb Nat.leb]. rewrite firstn_z2be_app, skipn_z2be_app, firstn_z2be_app.
  assert (Ex : be2z (z2be 32 sm2_Gx) = sm2_Gx) by (vm_compute; reflexivity).
  assert (Ey : be2z (z2be 32 sm2_Gy) = sm2_Gy) by (vm_compute; reflexivity). rewrite Ex, Ey.
  change (big_bytes 1) with [1]. rewrite mult_1. unfold bind. cbn [fst snd Nat.sub].
  destruct (sm2_kdf _ _ _) as [ck ok]. destruct (negb ok); [reflexivity|].
  cbv zeta. destruct (list_eq_dec _ _ _); reflexivity.
Qed.

(** A responder run with keylen = 8192: key [] and SUCCESS. *)
Lemma ka_8192 : exists RR si so,
  KeyAgreement_responder_ElGamal_step1 demo_B [1] [2] key1 (point_bytes sm2p256 (w_G sm2p256)) (point_bytes sm2p256 (w_G sm2p256))
    (point_bytes sm2p256 (w_G sm2p256)) 8192 (Some key2) SM2 = Ret ([], RR, si, so, SUCCESS).
Proof.
  rewrite responder_eq. unfold sm2_ka_responder_step1.
  change (length (point_bytes sm2p256 (w_G sm2p256))) with 64%nat. cbn [Nat.eqb negb].
  assert (Ex : be2z (firstn 32 (point_bytes sm2p256 (w_G sm2p256))) = sm2_Gx) by (vm_compute; reflexivity).
  assert (Ey : be2z (skipn 32 (point_bytes sm2p256 (w_G sm2p256))) = sm2_Gy) by (vm_compute; reflexivity). rewrite Ex, Ey.
  rewrite fst_bind, on_G. cbn [fst negb]. change (length key2 =? 32)%nat with true. cbn [negb]. cbv iota zeta.
  change ((be2z key2 =? 0) || (sm2_N <=? be2z key2)) with false. cbv iota.
  run R. change (length key1 =? 32)%nat with true. cbn [negb Nat.ltb Nat.leb].
  run P. 
  assert (E : exists zi zr, ka_ids [1] [2] (point_bytes sm2p256 (w_G sm2p256)) (point_bytes sm2p256 (w_G sm2p256)) = Some (zi, zr)).
  { assert (B1 : bytes_ok [1]) by (repeat constructor; discriminate).
    assert (B2 : bytes_ok [2]) by (repeat constructor; discriminate).
    eexists. eexists.
    exact (ka_ids_some sm2p256 sm2p256_valid (sl_p _ sm2_is) (sl_par _ sm2_is) (sl_base _ sm2_is) (sl_mult _ sm2_is) (sl_add _ sm2_is) (sl_on _ sm2_is) [1] [2] (w_G sm2p256) (w_G sm2p256) B1 B2
             (conj eq_refl eq_refl) (conj eq_refl eq_refl)). }
  destruct E as (zi & zr & ->). do 3 eexists. reflexivity.
Qed.

(** A responder run that reports SUCCESS. *)
Lemma ka_run keylen : exists key RR si so,
  KeyAgreement_responder_ElGamal_step1 demo_B [1] [2] key1 (point_bytes sm2p256 (w_G sm2p256)) (point_bytes sm2p256 (w_G sm2p256))
    (point_bytes sm2p256 (w_G sm2p256)) keylen (Some key2) SM2 = Ret (key, RR, si, so, SUCCESS).
Proof.
  rewrite responder_eq. unfold sm2_ka_responder_step1.
  change (length (point_bytes sm2p256 (w_G sm2p256))) with 64%nat. cbn [Nat.eqb negb].
  assert (Ex : be2z (firstn 32 (point_bytes sm2p256 (w_G sm2p256))) = sm2_Gx) by (vm_compute; reflexivity).
  assert (Ey : be2z (skipn 32 (point_bytes sm2p256 (w_G sm2p256))) = sm2_Gy) by (vm_compute; reflexivity). rewrite Ex, Ey.
  rewrite fst_bind, on_G. cbn [fst negb]. change (length key2 =? 32)%nat with true. cbn [negb]. cbv iota zeta.
  change ((be2z key2 =? 0) || (sm2_N <=? be2z key2)) with false. cbv iota.
  run R. change (length key1 =? 32)%nat with true. cbn [negb Nat.ltb Nat.leb].
  run P. 
  assert (E : exists zi zr, ka_ids [1] [2] (point_bytes sm2p256 (w_G sm2p256)) (point_bytes sm2p256 (w_G sm2p256)) = Some (zi, zr)).
  { assert (B1 : bytes_ok [1]) by (repeat constructor; discriminate).
    assert (B2 : bytes_ok [2]) by (repeat constructor; discriminate).
    eexists. eexists.
    exact (ka_ids_some sm2p256 sm2p256_valid (sl_p _ sm2_is) (sl_par _ sm2_is) (sl_base _ sm2_is) (sl_mult _ sm2_is) (sl_add _ sm2_is) (sl_on _ sm2_is) [1] [2] (w_G sm2p256) (w_G sm2p256) B1 B2
             (conj eq_refl eq_refl) (conj eq_refl eq_refl)). }
  destruct E as (zi & zr & ->). do 4 eexists. reflexivity.
Qed.
