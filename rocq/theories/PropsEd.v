(** Properties C18, C20, C38-C42, C44, C64-C66: Ed25519 and X25519. *)
Require Import ZArith List Lia Bool Znumtheory.
Require Import Verif.Base Verif.Words Verif.Fp Verif.Group Verif.EC Verif.Curves Verif.SpecEd Verif.EdCurve Verif.ModelK1 Verif.ModelECDSA Verif.ModelSM2F Verif.ModelSM2P Verif.ModelSM2S Verif.ModelSlp Verif.ModelEd Verif.ModelEdDSA Verif.ModelApi Verif.ModelEdPkg.
Require Import Verif.ProofSlp Verif.ProofEdF Verif.ProofEdG Verif.ProofEdC Verif.ProofEdN Verif.ProofEdM Verif.ProofEdR Verif.ProofEdS Verif.ProofEdX Verif.ProofEdA Verif.PropsApi.
Import ListNotations.
Open Scope Z_scope.

(** The contract of crypto/sha512. *)
Definition hash64 (h : bytes -> bytes) : Prop := forall m, length (h m) = 64%nat /\ bytes_ok (h m).
Definition key32 (k : bytes) : Prop := length k = 32%nat /\ bytes_ok k.

(** A stand-in for SHA-512 and a dispatcher to show the hypotheses satisfiable. *)
Definition demo_hash (m : bytes) : bytes := z2le 64 (1 + 12345 * le2z m).
Example demo_hash_ok : hash64 demo_hash.
Proof. intros m. split; [apply z2le_length|apply z2le_ok]. Qed.
Definition demo_ed (B : backends) : backends :=
  {| bk_drbg := bk_drbg B; bk_entropy := bk_entropy B; bk_rand := bk_rand B; bk_fuel := bk_fuel B; bk_r1 := bk_r1 B;
     bk_ed_normal := ed_normal_pkg demo_hash; bk_ed := ed_pkg demo_hash (repeat 9 32); bk_x := x_pkg demo_hash (repeat 9 64);
     bk_sha256 := bk_sha256 B; bk_ed_baseadd := ScalarMultBaseAdd; bk_ed_add := ed_Point_add;
     bk_bls := bk_bls B; bk_bls_baseadd := bk_bls_baseadd B; bk_bls_aggregate := bk_bls_aggregate B; bk_pasta := bk_pasta B;
     bk_pasta_baseadd := bk_pasta_baseadd B; bk_pasta_add := bk_pasta_add B; bk_pasta_mul := bk_pasta_mul B;
     bk_pasta_decompress := bk_pasta_decompress B |}.

Definition runs_normal (h : bytes -> bytes) (B : backends) : Prop := bk_ed_normal B = ed_normal_pkg h.
Definition runs_raw (h : bytes -> bytes) (rnd : bytes) (B : backends) : Prop := bk_ed B = ed_pkg h rnd.
Definition runs_x (h : bytes -> bytes) (rnd : bytes) (B : backends) : Prop := bk_x B = x_pkg h rnd.
Definition runs_points (B : backends) : Prop := bk_ed_baseadd B = ScalarMultBaseAdd /\ bk_ed_add B = ed_Point_add.
Example demo_ed_runs B : runs_normal demo_hash (demo_ed B) /\ runs_raw demo_hash (repeat 9 32) (demo_ed B) /\
  runs_x demo_hash (repeat 9 64) (demo_ed B) /\ runs_points (demo_ed B).
Proof. repeat split. Qed.
Example demo_key : key32 (repeat 77 32).
Proof. split; [reflexivity|]. apply Forall_forall. intros x H. apply repeat_spec in H. subst. unfold byte_ok. lia. Qed.

(** ** C18 *)
Definition ed_reports_order : Prop :=
  exists b, GetCurveOrder ECC_CURVE_ED25519 = Some b /\ length b = 32%nat /\ prime (be2z b) /\
    ed_on ed_B /\ ed_B <> ed_zero /\ forall k, ed_mul k ed_B = ed_zero <-> (be2z b | k).
Theorem C18_curve_orders :
  reports_order ECC_CURVE_SECP256K1 secp256k1 /\ reports_order ECC_CURVE_SECP256R1 p256 /\
  reports_order ECC_CURVE_SM2_STANDARD sm2p256 /\ reports_order ECC_CURVE_PASTA pallas /\ ed_reports_order.
Proof.
  destruct C18_curve_orders_partial as (A & B & C & D). split; [exact A|]. split; [exact B|]. split; [exact C|]. split; [exact D|].
  exists (z2be 32 ed_L). split; [reflexivity|]. split; [apply z2be_length|].
  assert (E : be2z (z2be 32 ed_L) = ed_L) by (rewrite be2z_z2be; apply Z.mod_small; split; [discriminate|reflexivity]).
  rewrite E. split; [exact prime_L|]. split; [exact ed_B_on|]. split; [exact ed_B_ne|]. intros k.
  change ed_zero with (ed_mul 0 ed_B). rewrite mulB_inj, Z.mod_0_l by discriminate. apply Z.mod_divide. discriminate.
Qed.
Print Assumptions C18_curve_orders.

(** ** C38: Ed25519 keys and signatures are those of RFC 8032, and verify *)
Theorem C38_ed25519_normal : forall h B key ID msg, hash64 h -> runs_normal h B -> length key = 32%nat ->
  GenPubkey B key ECC_CURVE_ED25519_NORMAL = Ret (Some (ed_pub h key), SUCCESS) /\
  Signature B key ID msg ECC_CURVE_ED25519_NORMAL = Some (Ret (Some (ed_sign h key msg), 0, SUCCESS)) /\
  Verify B (ed_pub h key) ID msg (ed_sign h key msg) ECC_CURVE_ED25519_NORMAL = Ret SUCCESS.
Proof.
  intros h B key ID msg Hh HB HL. assert (H1 : forall m, length (h m) = 64%nat) by apply Hh. assert (H2 : forall m, bytes_ok (h m)) by apply Hh.
  unfold GenPubkey, Signature, Verify. rewrite Z.eqb_refl, HB. cbn [ed_normal_pkg sp_genpub sp_sign sp_verify].
  rewrite (CURVE25519_genPub_spec h H1 H2 key HL), (CURVE25519_sign_spec h H1 H2 key msg HL), (CURVE25519_roundtrip h H1 H2 key msg).
  repeat split; reflexivity.
Qed.
Print Assumptions C38_ed25519_normal.

(** ** C39 *)
Definition raw_key (key : bytes) : Prop := key32 key /\ le2z key < 2 ^ 255.
Definition raw_pub (key : bytes) : bytes := ed_enc (ed_mul (le2z key) ed_B).
(** what Signature returns: the clamped scalar signs *)
Definition raw_sig (h : bytes -> bytes) (rnd key msg : bytes) : bytes := ed_sig h (ed_clamp key) rnd (raw_pub key) msg.
Definition raw_hash (h : bytes -> bytes) (rnd key msg : bytes) : Z :=
  le2z (h (firstn 32 (raw_sig h rnd key msg) ++ raw_pub key ++ msg)).

Lemma clamp_of_small key : key32 key -> le2z key = ed_clamp key <-> (2 ^ 254 <= le2z key < 2 ^ 255 /\ le2z key mod 8 = 0).
Proof.
  intros [HL HB]. unfold ed_clamp. pose proof (le2z_bound key HB) as D. rewrite HL in D. change (256 ^ Z.of_nat 32) with (4 * 2 ^ 254) in D.
  set (a := le2z key) in *. clearbody a. clear HL HB. change (2 ^ 255) with (2 * 2 ^ 254). 
  assert (M : 8 * ((a / 8) mod 2 ^ 251) = (8 * (a / 8)) mod 2 ^ 254).
  { change (2 ^ 254) with (8 * 2 ^ 251). rewrite Z.mul_mod_distr_l by discriminate. reflexivity. }
  rewrite M. clear M. set (P := 2 ^ 254) in *. assert (P8 : P mod 8 = 0) by reflexivity.
  assert (E : 8 * (a / 8) = a - a mod 8) by lia. rewrite E. clear E.
  assert (PP : 8 < P) by reflexivity.
  assert (QP : P = 8 * (P / 8)) by lia. set (P' := P / 8) in *. clearbody P'. clearbody P. subst P.
  set (r := a mod 8) in *. assert (Hr : 0 <= r < 8) by (unfold r; lia).
  split.
  - intros H. pose proof (Z.mod_pos_bound (a - r) (8 * P') ltac:(lia)) as B1. split; [lia|].
    assert (X : a mod 8 = 0). { rewrite H. unfold r. pose proof (Z.div_mod (a - a mod 8) (8 * P') ltac:(lia)) as DM. set (q := (a - a mod 8) / (8 * P')) in *.
      assert (a - a mod 8 = 8 * (a / 8)) by lia. set (z := (a - a mod 8) mod (8 * P')) in *. replace (8 * P' + z) with ((P' + a / 8 - P' * q) * 8) by lia. apply Z.mod_mul. lia. }
    exact X.
  - intros [[H1 H2] H3]. assert (r = 0) as -> by exact H3. rewrite Z.sub_0_r.
    replace (a mod (8 * P')) with (a - 8 * P'); [lia|]. apply (Z.mod_unique_pos _ _ 1); lia.
Qed.

Theorem C39_ed25519_raw_partial : forall h rnd B key ID msg, hash64 h -> runs_raw h rnd B -> raw_key key ->
  GenPubkey B key ECC_CURVE_ED25519 = Ret (Some (raw_pub key), SUCCESS) /\
  Signature B key ID msg ECC_CURVE_ED25519 = Some (Ret (Some (raw_sig h rnd key msg), 0, SUCCESS)) /\
  (Verify B (raw_pub key) ID msg (raw_sig h rnd key msg) ECC_CURVE_ED25519 = Ret SUCCESS <->
   (ed_L | raw_hash h rnd key msg) \/ (ed_L | ed_clamp key - le2z key)).
Proof.
  intros h rnd B key ID msg Hh HB [[HL HK] LT]. assert (H1 : forall m, length (h m) = 64%nat) by apply Hh. assert (H2 : forall m, bytes_ok (h m)) by apply Hh.
  unfold GenPubkey, Signature, Verify.
  replace (ECC_CURVE_ED25519 =? ECC_CURVE_ED25519_NORMAL) with false by reflexivity. rewrite Z.eqb_refl, HB. cbn [ed_pkg sp_genpub sp_sign sp_verify].
  rewrite (ED25519_genPub_spec key HK HL LT), (ED25519_sign_spec h H1 H2 rnd key msg HK HL LT).
  split; [reflexivity|]. split; [reflexivity|].
  pose proof (sign_verify_iff h H1 H2 (le2z (h (rnd ++ msg))) (ed_clamp key) (le2z key) msg) as V. cbv zeta in V.
  fold (ed_sig h (ed_clamp key) rnd (ed_enc (ed_mul (le2z key) ed_B)) msg) in V. fold (raw_pub key) in V. fold (raw_sig h rnd key msg) in V. fold (raw_hash h rnd key msg) in V.
  destruct (eddsa_verify h (raw_pub key) msg (raw_sig h rnd key msg)); cbn [verify_ret].
  - split; [intros _|reflexivity]. apply prime_mult; [exact prime_L|]. apply Z.mod_divide; [discriminate|]. now apply V.
  - split; [discriminate|]. intros D. exfalso. assert (X : false = true); [|discriminate X]. apply V. apply Z.mod_divide; [discriminate|].
    destruct D as [D|D]; [now apply Z.divide_mul_l|now apply Z.divide_mul_r].
Qed.
Print Assumptions C39_ed25519_raw_partial.
(** keys that are already in the clamped form verify *)
Theorem C39_ed25519_clamped : forall h rnd B key ID msg, hash64 h -> runs_raw h rnd B -> key32 key ->
  2 ^ 254 <= le2z key < 2 ^ 255 -> le2z key mod 8 = 0 ->
  Verify B (raw_pub key) ID msg (raw_sig h rnd key msg) ECC_CURVE_ED25519 = Ret SUCCESS.
Proof.
  intros h rnd B key ID msg Hh HB HK R M. apply (C39_ed25519_raw_partial h rnd B key ID msg Hh HB (conj HK (proj2 R))). right.
  rewrite <- (proj2 (clamp_of_small key HK) (conj R M)), Z.sub_diag. apply Z.divide_0_r.
Qed.
Example C39_clamped_key : key32 (8 :: repeat 0 30 ++ [64]) /\ 2 ^ 254 <= le2z (8 :: repeat 0 30 ++ [64]) < 2 ^ 255 /\ le2z (8 :: repeat 0 30 ++ [64]) mod 8 = 0.
Proof.
  split; [split; [reflexivity|]|split; [split; [discriminate|reflexivity]|reflexivity]].
  repeat (constructor; [unfold byte_ok; lia|]). constructor.
Qed.
(** for the scalar 1 no signature verifies, unless SHA-512 hits a multiple of L *)
Definition key_one : bytes := 1 :: repeat 0 31.
Theorem C39_ed25519_raw_refuted : forall h rnd B ID msg, hash64 h -> runs_raw h rnd B -> (forall m, ~ (ed_L | le2z (h m))) ->
  raw_key key_one /\
  GenPubkey B key_one ECC_CURVE_ED25519 = Ret (Some (raw_pub key_one), SUCCESS) /\
  Signature B key_one ID msg ECC_CURVE_ED25519 = Some (Ret (Some (raw_sig h rnd key_one msg), 0, SUCCESS)) /\
  Verify B (raw_pub key_one) ID msg (raw_sig h rnd key_one msg) ECC_CURVE_ED25519 = Ret FAILURE.
Proof.
  intros h rnd B ID msg Hh HB N.
  assert (K : raw_key key_one).
  { split; [split; [reflexivity|]|reflexivity]. unfold key_one. repeat (constructor; [unfold byte_ok; lia|]). constructor. }
  split; [exact K|]. destruct (C39_ed25519_raw_partial h rnd B key_one ID msg Hh HB K) as (A & C & D). split; [exact A|]. split; [exact C|].
  assert (T : Verify B (raw_pub key_one) ID msg (raw_sig h rnd key_one msg) ECC_CURVE_ED25519 <> Ret SUCCESS).
  { intros E. apply D in E. destruct E as [E|E]; [exact (N _ E)|]. apply Z.mod_divide in E; [|discriminate]. vm_compute in E. discriminate E. }
  clear -T HB. unfold Verify in *. replace (ECC_CURVE_ED25519 =? ECC_CURVE_ED25519_NORMAL) with false in * by reflexivity. rewrite Z.eqb_refl, HB in *. cbn [ed_pkg sp_verify] in *.
  destruct (eddsa_verify h (raw_pub key_one) msg (raw_sig h rnd key_one msg)); [|reflexivity]. exfalso. now apply T.
Qed.
Print Assumptions C39_ed25519_raw_refuted.
Example C39_hash_exists : hash64 (fun _ => 1 :: repeat 0 63) /\ forall m : bytes, ~ (ed_L | le2z ((fun _ => 1 :: repeat 0 63) m)).
Proof.
  split; [intros m; split; [reflexivity|]|].
  - repeat (constructor; [unfold byte_ok; lia|]). constructor.
  - intros m D. apply Z.mod_divide in D; [|discriminate]. vm_compute in D. discriminate D.
Qed.

(** ** C40 *)
Theorem C40_ed25519_public_key_partial : forall h rnd B key, runs_raw h rnd B -> raw_key key ->
  GenPubkey B key ECC_CURVE_ED25519 = Ret (Some (ed_enc (ed_mul (le2z key) ed_B)), SUCCESS).
Proof.
  intros h rnd B key HB [[HL HK] LT]. unfold GenPubkey.
  replace (ECC_CURVE_ED25519 =? ECC_CURVE_ED25519_NORMAL) with false by reflexivity. rewrite Z.eqb_refl, HB. cbn [ed_pkg sp_genpub].
  now rewrite (ED25519_genPub_spec key HK HL LT).
Qed.
Print Assumptions C40_ed25519_public_key_partial.
Definition key_ff : bytes := repeat 255 32.
(** the scalar 2^256 - 1 is treated as -1 *)
Theorem C40_ed25519_public_key_refuted : forall h rnd B, runs_raw h rnd B ->
  key32 key_ff /\ GenPubkey B key_ff ECC_CURVE_ED25519 = Ret (Some (ed_enc (ed_neg ed_B)), SUCCESS) /\
  ed_enc (ed_mul (le2z key_ff) ed_B) <> ed_enc (ed_neg ed_B).
Proof.
  intros h rnd B HB. split; [|split].
  - split; [reflexivity|]. apply Forall_forall. intros x H. apply repeat_spec in H. subst. unfold byte_ok. lia.
  - unfold GenPubkey. replace (ECC_CURVE_ED25519 =? ECC_CURVE_ED25519_NORMAL) with false by reflexivity. rewrite Z.eqb_refl, HB. cbn [ed_pkg sp_genpub].
    unfold ED25519_genPub. replace (negb (length key_ff =? 32)%nat) with false by reflexivity. 
    assert (T : ext_tobytes (GeScalarMultBase key_ff) = ed_enc (ed_neg ed_B)); [|rewrite T; reflexivity].
    apply (ext_tobytes_ok 1); [lia|].
    pose proof (GeScalarMultBase_rep key_ff eq_refl) as R.
    assert (V : hval 16 (map sel (recode (nibbles key_ff) 0)) = -1) by (vm_compute; reflexivity).
    rewrite V in R. change (-1) with (- (1)) in R. rewrite (ed_mul_neg 1 ed_B ed_B_on), (ed_mul_1 ed_B ed_B_on) in R. exact R.
  - intros E. apply ed_enc_inj in E; [|apply mulB_on|apply ed_neg_on, ed_B_on].
    assert (E1 : ed_neg ed_B = ed_mul (- (1)) ed_B) by (rewrite (ed_mul_neg 1 ed_B ed_B_on), (ed_mul_1 ed_B ed_B_on); reflexivity).
    rewrite E1 in E. apply mulB_inj in E. vm_compute in E. discriminate E.
Qed.
Print Assumptions C40_ed25519_public_key_refuted.

(** ** C41 *)
Definition x_pub (key : bytes) : bytes := f25_enc (mont_u (snd (ed_mul (le2z key) ed_B))).
Theorem C41_x25519_signatures_verify_partial : forall h rnd B key ID msg, hash64 h -> runs_x h rnd B -> raw_key key ->
  ~ (ed_L | le2z key) -> msg <> [] ->
  GenPubkey B key ECC_CURVE_X25519 = Ret (Some (x_pub key), SUCCESS) /\
  Signature B key ID msg ECC_CURVE_X25519 = Some (Ret (Some (x_sig h rnd key msg), 0, SUCCESS)) /\
  Verify B (x_pub key) ID msg (x_sig h rnd key msg) ECC_CURVE_X25519 = Ret SUCCESS.
Proof.
  intros h rnd B key ID msg Hh HB [[HL HK] LT] NL NM. assert (H1 : forall m, length (h m) = 64%nat) by apply Hh. assert (H2 : forall m, bytes_ok (h m)) by apply Hh.
  unfold GenPubkey, Signature, Verify.
  replace (ECC_CURVE_X25519 =? ECC_CURVE_ED25519_NORMAL) with false by reflexivity. replace (ECC_CURVE_X25519 =? ECC_CURVE_ED25519) with false by reflexivity.
  rewrite Z.eqb_refl, HB. cbn [x_pkg sp_genpub sp_sign sp_verify].
  rewrite (X25519_genPub_spec key HK HL LT), (X25519_sign_spec h H1 H2 rnd key msg HK HL LT). unfold x_pub.
  assert (NZ : le2z key mod ed_L <> 0) by (intros E; apply NL, Z.mod_divide; [discriminate|exact E]).
  rewrite (X25519_roundtrip h H1 H2 rnd key msg HK HL NZ NM).
  repeat split; reflexivity.
Qed.
Print Assumptions C41_x25519_signatures_verify_partial.
Example C41_key : raw_key (repeat 77 32) /\ ~ (ed_L | le2z (repeat 77 32)).
Proof. split; [split; [exact demo_key|reflexivity]|]. intros D. apply Z.mod_divide in D; [|discriminate]. vm_compute in D. discriminate D. Qed.
(** the empty message is signed but never verifies *)
Theorem C41_x25519_signatures_verify_refuted : forall h rnd B key ID, hash64 h -> runs_x h rnd B -> raw_key key ->
  Signature B key ID [] ECC_CURVE_X25519 = Some (Ret (Some (x_sig h rnd key []), 0, SUCCESS)) /\
  Verify B (x_pub key) ID [] (x_sig h rnd key []) ECC_CURVE_X25519 = Ret FAILURE.
Proof.
  intros h rnd B key ID Hh HB [[HL HK] LT]. assert (H1 : forall m, length (h m) = 64%nat) by apply Hh. assert (H2 : forall m, bytes_ok (h m)) by apply Hh.
  unfold Signature, Verify.
  replace (ECC_CURVE_X25519 =? ECC_CURVE_ED25519_NORMAL) with false by reflexivity. replace (ECC_CURVE_X25519 =? ECC_CURVE_ED25519) with false by reflexivity.
  rewrite Z.eqb_refl, HB. cbn [x_pkg sp_sign sp_verify].
  rewrite (X25519_sign_spec h H1 H2 rnd key [] HK HL LT), X25519_empty. split; reflexivity.
Qed.
Print Assumptions C41_x25519_signatures_verify_refuted.

(** ** C42 *)
Theorem C42_conversion_partial :
  (forall s, key32 s -> le2z s < p25 -> le2z s <> p25 - 1 ->
     exists e, CURVE25519_convert_X_to_Ed s = Ok e /\ e = f25_enc (mont_y (fz (le2z s))) /\ CURVE25519_convert_Ed_to_X e = Ok s) /\
  (forall s, key32 s -> (le2z s mod 2 ^ 255) mod p25 <> 1 ->
     exists u, CURVE25519_convert_Ed_to_X s = Ok u /\ u = f25_enc (mont_u (fz (le2z s mod 2 ^ 255))) /\
               CURVE25519_convert_X_to_Ed u = Ok (z2le 32 ((le2z s mod 2 ^ 255) mod p25))) /\
  (forall s, key32 s -> p25 <= le2z s -> CURVE25519_convert_X_to_Ed s = Err ErrOther).
Proof.
  split; [|split].
  - intros s [HL HB] C N. rewrite (X_to_Ed_spec s HL HB). destruct (Z.ltb_spec (le2z s) p25) as [_|L]; [|lia].
    eexists. split; [reflexivity|]. split; [reflexivity|].
    rewrite Ed_to_X_spec by (apply f25_enc_length || apply f25_enc_ok). f_equal. rewrite f25_enc_dec.
    rewrite mont_u_y.
    + symmetry. pose proof (proj2 (canonical_iff s HL HB) C) as E. rewrite E at 1. f_equal. rewrite Z.mod_small; [reflexivity|].
      pose proof (le2z_nonneg s HB). assert (p25 < 2 ^ 255) by reflexivity. lia.
    + intros E. apply N. assert (V : fval (fz (le2z s)) = fval (fp_opp (fz 1))) by now rewrite E.
      rewrite fval_of, Z.mod_small in V by (split; [now apply le2z_nonneg|exact C]). rewrite V. reflexivity.
  - intros s [HL HB] N. rewrite (Ed_to_X_spec s HL HB). eexists. split; [reflexivity|]. split; [reflexivity|].
    rewrite X_to_Ed_spec by (apply f25_enc_length || apply f25_enc_ok). rewrite !f25_enc_val.
    destruct (Z.ltb_spec (fval (mont_u (fz (le2z s mod 2 ^ 255)))) p25) as [_|L].
    2:{ exfalso. pose proof (fval25 (mont_u (fz (le2z s mod 2 ^ 255)))). lia. }
    rewrite fp_of_val, mont_y_u; [unfold f25_enc; now rewrite fval_of|].
    intros E. apply N. rewrite <- (fval_of p25), E. reflexivity.
  - intros s [HL HB] C. rewrite (X_to_Ed_spec s HL HB). destruct (Z.ltb_spec (le2z s) p25); [lia|reflexivity].
Qed.
Print Assumptions C42_conversion_partial.
Example C42_nine : key32 (9 :: repeat 0 31) /\ le2z (9 :: repeat 0 31) < p25 /\ le2z (9 :: repeat 0 31) <> p25 - 1.
Proof. split; [split; [reflexivity|repeat (constructor; [unfold byte_ok; lia|]); constructor]|]. split; [reflexivity|discriminate]. Qed.
(** u = -1 and y = 1 do not come back *)
Theorem C42_conversion_refuted :
  CURVE25519_convert_X_to_Ed (z2le 32 (p25 - 1)) = Ok (z2le 32 0) /\ CURVE25519_convert_Ed_to_X (z2le 32 0) = Ok (z2le 32 1) /\
  CURVE25519_convert_Ed_to_X (z2le 32 1) = Ok (z2le 32 0) /\ CURVE25519_convert_X_to_Ed (z2le 32 0) = Ok (z2le 32 (p25 - 1)).
Proof.
  assert (E : forall n, 0 <= n < p25 -> le2z (z2le 32 n) = n).
  { intros n Hn. rewrite le2z_z2le. apply Z.mod_small. assert (p25 < 256 ^ Z.of_nat 32) by reflexivity. lia. }
  split; [|split; [|split]].
  - rewrite X_to_Ed_spec by (apply z2le_length || apply z2le_ok). rewrite E by (split; [discriminate|reflexivity]). vm_compute. reflexivity.
  - rewrite Ed_to_X_spec by (apply z2le_length || apply z2le_ok). rewrite E by (split; [discriminate|reflexivity]). vm_compute. reflexivity.
  - rewrite Ed_to_X_spec by (apply z2le_length || apply z2le_ok). rewrite E by (split; [discriminate|reflexivity]). vm_compute. reflexivity.
  - rewrite X_to_Ed_spec by (apply z2le_length || apply z2le_ok). rewrite E by (split; [discriminate|reflexivity]). vm_compute. reflexivity.
Qed.
Print Assumptions C42_conversion_refuted.

(** ** C44 *)
Definition fe_value (f : list Z) : Z :=
  match f with
  | [f0; f1; f2; f3; f4; f5; f6; f7; f8; f9] =>
      f0 + 2 ^ 26 * f1 + 2 ^ 51 * f2 + 2 ^ 77 * f3 + 2 ^ 102 * f4 + 2 ^ 128 * f5 + 2 ^ 153 * f6 + 2 ^ 179 * f7 + 2 ^ 204 * f8 + 2 ^ 230 * f9
  | _ => 0
  end.
(** ten limbs, even ones up to c times 1.0006 * 2^25, odd ones half of it *)
Definition fe_within (c : Z) (f : list Z) : Prop :=
  length f = 10%nat /\ forall i, (i < 10)%nat -> Z.abs (nth i f 0) <= c * (if Nat.even i then 33570816 else 16785408).
Transparent lv fev.
Lemma within_lv c f : fe_within c f <-> lv c f.
Proof.
  unfold lv, lev, bd, inL. split.
  - intros [HL H]. do 10 (destruct f as [|? f]; [discriminate HL|]). destruct f; [|discriminate HL].
    pose proof (H 0%nat ltac:(lia)) as X0. cbn in X0.
    pose proof (H 1%nat ltac:(lia)) as X1. cbn in X1.
    pose proof (H 2%nat ltac:(lia)) as X2. cbn in X2.
    pose proof (H 3%nat ltac:(lia)) as X3. cbn in X3.
    pose proof (H 4%nat ltac:(lia)) as X4. cbn in X4.
    pose proof (H 5%nat ltac:(lia)) as X5. cbn in X5.
    pose proof (H 6%nat ltac:(lia)) as X6. cbn in X6.
    pose proof (H 7%nat ltac:(lia)) as X7. cbn in X7.
    pose proof (H 8%nat ltac:(lia)) as X8. cbn in X8.
    pose proof (H 9%nat ltac:(lia)) as X9. cbn in X9.
    apply Forall2_cons; [unfold inI; cbn [fst snd]; clear - X0; lia|].
    apply Forall2_cons; [unfold inI; cbn [fst snd]; clear - X1; lia|].
    apply Forall2_cons; [unfold inI; cbn [fst snd]; clear - X2; lia|].
    apply Forall2_cons; [unfold inI; cbn [fst snd]; clear - X3; lia|].
    apply Forall2_cons; [unfold inI; cbn [fst snd]; clear - X4; lia|].
    apply Forall2_cons; [unfold inI; cbn [fst snd]; clear - X5; lia|].
    apply Forall2_cons; [unfold inI; cbn [fst snd]; clear - X6; lia|].
    apply Forall2_cons; [unfold inI; cbn [fst snd]; clear - X7; lia|].
    apply Forall2_cons; [unfold inI; cbn [fst snd]; clear - X8; lia|].
    apply Forall2_cons; [unfold inI; cbn [fst snd]; clear - X9; lia|].
    apply Forall2_nil.
  - intros H. repeat match goal with H : Forall2 _ _ _ |- _ => inversion H; clear H; subst end. unfold inI in *. cbn [fst snd] in *.
    split; [reflexivity|]. intros i Hi. do 10 (destruct i as [|i]; [cbn; lia|]). lia.
Qed.
Lemma value_fev f : length f = 10%nat -> fe_value f = fev f.
Proof. intros HL. do 10 (destruct f as [|? f]; [discriminate HL|]). destruct f; [|discriminate HL]. unfold fev, wts, fe_value, dot. ring. Qed.
Opaque lv fev.
Definition eq_mod_p (a b : Z) : Prop := a mod p25 = b mod p25.
Lemma eqp_mod a b : eqp a b -> eq_mod_p a b.
Proof. intros [q E]. unfold eq_mod_p. replace a with (b + q * p25) by lia. apply Z.mod_add. discriminate. Qed.

Theorem C44_field_arithmetic : forall f g, 
  (fe_within 3 f -> fe_within 3 g -> fe_within 1 (FeMul f g) /\ eq_mod_p (fe_value (FeMul f g)) (fe_value f * fe_value g)) /\
  (fe_within 3 f -> fe_within 1 (FeSquare f) /\ eq_mod_p (fe_value (FeSquare f)) (fe_value f * fe_value f)) /\
  (fe_within 3 f -> fe_within 1 (FeSquare2 f) /\ eq_mod_p (fe_value (FeSquare2 f)) (2 * (fe_value f * fe_value f))) /\
  (forall c c', c + c' <= 63 -> fe_within c f -> fe_within c' g ->
     fe_within (c + c') (FeAdd f g) /\ fe_value (FeAdd f g) = fe_value f + fe_value g /\
     fe_within (c + c') (FeSub f g) /\ fe_value (FeSub f g) = fe_value f - fe_value g) /\
  (forall c, c <= 63 -> fe_within c f -> fe_within c (FeNeg f) /\ fe_value (FeNeg f) = - fe_value f) /\
  (fe_within 3 f -> fe_within 1 (FeInvert f) /\ (fe_value f mod p25 <> 0 -> eq_mod_p (fe_value (FeInvert f) * fe_value f) 1)) /\
  (fe_within 3 f -> fst (FeToBytes f) = z2le 32 (fe_value f mod p25) /\ fst (FeIsNegative f) = (fe_value f mod p25) mod 2 /\
     FeIsNonZero f = if fe_value f mod p25 =? 0 then 0 else 1) /\
  (forall s, key32 s -> fe_within 1 (FeFromBytes s) /\ eq_mod_p (fe_value (FeFromBytes s)) (le2z s mod 2 ^ 255)).
Proof.
  intros f g.
  assert (V : forall c f, fe_within c f -> fe_value f = fev f) by (intros c f0 [HL _]; now apply value_fev).
  assert (V' : forall c f, lv c f -> fe_value f = fev f) by (intros c f0 H; apply (V c), within_lv, H).
  split; [|split; [|split; [|split; [|split; [|split; [|split]]]]]].
  - intros Hf Hg. rewrite (V 3 f Hf), (V 3 g Hg). apply within_lv in Hf, Hg. destruct (FeMul_ok f g Hf Hg) as [A B].
    split; [now apply within_lv|]. rewrite (V' 1 _ A). now apply eqp_mod.
  - intros Hf. rewrite (V 3 f Hf). apply within_lv in Hf. destruct (FeSquare_ok f Hf) as [A B].
    split; [now apply within_lv|]. rewrite (V' 1 _ A). now apply eqp_mod.
  - intros Hf. rewrite (V 3 f Hf). apply within_lv in Hf. destruct (FeSquare2_ok f Hf) as [A B].
    split; [now apply within_lv|]. rewrite (V' 1 _ A). now apply eqp_mod.
  - intros c c' Hc Hf Hg. rewrite (V c f Hf), (V c' g Hg). apply within_lv in Hf, Hg.
    destruct (FeAdd_ok c c' f g Hf Hg Hc) as [A B]. destruct (FeSub_ok c c' f g Hf Hg Hc) as [A' B'].
    split; [now apply within_lv|]. rewrite (V' _ _ A), (V' _ _ A'). split; [exact B|]. split; [now apply within_lv|exact B'].
  - intros c Hc Hf. rewrite (V c f Hf). apply within_lv in Hf. destruct (FeNeg_ok c f Hf Hc) as [A B].
    split; [now apply within_lv|]. rewrite (V' _ _ A). exact B.
  - intros Hf. rewrite (V 3 f Hf). apply within_lv in Hf. assert (R : rep 3 f (fz (fev f))) by (split; [exact Hf|reflexivity]).
    destruct (FeInvert_all f _ R) as [A B]. split; [now apply within_lv|]. rewrite (V' _ _ A). intros N. unfold eq_mod_p.
    assert (N' : fz (fev f) <> fz 0). { intros E. apply N. rewrite <- (fval_of p25), E. reflexivity. }
    rewrite <- !(fval_of p25), fp_of_mul, B. f_equal. rewrite (fp_inv_spec p25 prime_p25 _ N'). reflexivity.
  - intros Hf. rewrite (V 3 f Hf). apply within_lv in Hf. split; [exact (FeToBytes_enc f Hf)|].
    split; [|exact (FeIsNonZero_ok f Hf)]. exact (proj1 (FeIsNegative_ok f Hf)).
  - intros s [HL HB]. destruct (rep_frombytes s HL HB) as [A B]. split; [now apply within_lv|]. rewrite (V' _ _ A).
    unfold eq_mod_p. rewrite <- !(fval_of p25). f_equal. exact B.
Qed.
Print Assumptions C44_field_arithmetic.
Example C44_limbs : fe_within 3 [100000000; -50000000; 0; 1; 2; 3; 4; 5; -100000000; 50000000].
Proof. split; [reflexivity|]. intros i Hi. do 10 (destruct i as [|i]; [cbn; lia|]). lia. Qed.
Theorem C44_scalar_arithmetic :
  (forall s, length s = 64%nat -> bytes_ok s -> key32 (ScReduce s) /\ le2z (ScReduce s) = le2z s mod ed_L) /\
  (forall a b c, key32 a -> key32 b -> key32 c -> key32 (ScMulAdd a b c) /\ le2z (ScMulAdd a b c) = (le2z a * le2z b + le2z c) mod ed_L).
Proof.
  split.
  - intros s HL HB. destruct (ScReduce_ok s HB HL) as (A & B & C). repeat split; assumption.
  - intros a b c [A1 A2] [B1 B2] [C1 C2]. destruct (ScMulAdd_ok a b c A2 A1 B2 B1 C2 C1) as (A & B & C). repeat split; assumption.
Qed.
Print Assumptions C44_scalar_arithmetic.

(** ** C64: what Verify accepts *)
Theorem C64_ed25519_verify : forall h rnd B pub ID msg sig, hash64 h -> runs_normal h B -> runs_raw h rnd B -> bytes_ok pub -> bytes_ok sig ->
  let accepted := length pub = 32%nat /\ length sig = 64%nat /\ le2z (skipn 32 sig) < 2 ^ 253 /\
    exists A, ed_dec pub A /\
      let k := le2z (h (firstn 32 sig ++ pub ++ msg)) mod ed_L in
      ed_enc (ed_add (ed_mul (le2z (skipn 32 sig)) ed_B) (ed_neg (ed_mul k A))) = firstn 32 sig in
  (Verify B pub ID msg sig ECC_CURVE_ED25519_NORMAL = Ret SUCCESS <-> accepted) /\
  (Verify B pub ID msg sig ECC_CURVE_ED25519 = Ret SUCCESS <-> accepted) /\
  (~ accepted -> Verify B pub ID msg sig ECC_CURVE_ED25519_NORMAL = Ret FAILURE /\ Verify B pub ID msg sig ECC_CURVE_ED25519 = Ret FAILURE).
Proof.
  intros h rnd B pub ID msg sig Hh HB HB' HP HS accepted. assert (H1 : forall m, length (h m) = 64%nat) by apply Hh. assert (H2 : forall m, bytes_ok (h m)) by apply Hh.
  pose proof (eddsa_verify_iff h H1 H2 pub msg sig HP HS) as V. unfold Verify.
  replace (ECC_CURVE_ED25519 =? ECC_CURVE_ED25519_NORMAL) with false by reflexivity. rewrite !Z.eqb_refl, HB, HB'. cbn [ed_pkg ed_normal_pkg sp_verify].
  change (eddsa_verify h pub msg sig = true <-> accepted) in V.
  destruct (eddsa_verify h pub msg sig); cbn [verify_ret].
  - pose proof (proj1 V eq_refl) as Acc. split; [split; auto|]. split; [split; auto|]. contradiction.
  - split; [|split]; [split; [discriminate|]|split; [discriminate|]|split; reflexivity]; intros Acc; apply V in Acc; discriminate Acc.
Qed.
Print Assumptions C64_ed25519_verify.

(** ** C65: S + L in place of S is accepted as well *)
Theorem C65_ed25519_malleable_refuted : forall h B pub ID msg R S, hash64 h -> runs_normal h B -> bytes_ok pub ->
  key32 R -> 0 <= S -> S + ed_L < 2 ^ 253 ->
  Verify B pub ID msg (R ++ z2le 32 S) ECC_CURVE_ED25519_NORMAL = Ret SUCCESS ->
  Verify B pub ID msg (R ++ z2le 32 (S + ed_L)) ECC_CURVE_ED25519_NORMAL = Ret SUCCESS /\ R ++ z2le 32 (S + ed_L) <> R ++ z2le 32 S.
Proof.
  intros h B pub ID msg R S Hh HB HP [LR HR] S0 SL. assert (H1 : forall m, length (h m) = 64%nat) by apply Hh. assert (H2 : forall m, bytes_ok (h m)) by apply Hh.
  unfold Verify. rewrite !Z.eqb_refl, HB. cbn [ed_normal_pkg sp_verify].
  assert (P : forall T, 0 <= T < 2 ^ 253 -> firstn 32 (R ++ z2le 32 T) = R /\ le2z (skipn 32 (R ++ z2le 32 T)) = T /\ length (R ++ z2le 32 T) = 64%nat /\ bytes_ok (R ++ z2le 32 T)).
  { intros T HT. rewrite firstn_app, skipn_app, LR, Nat.sub_diag, firstn_O, skipn_O, app_nil_r, firstn_all2, skipn_all2 by lia. cbn [app].
    rewrite le2z_z2le, app_length, LR, z2le_length. split; [reflexivity|]. split; [apply Z.mod_small; change (256 ^ Z.of_nat 32) with (8 * 2 ^ 253); lia|]. split; [reflexivity|].
    apply bytes_ok_app; [exact HR|apply z2le_ok]. }
  assert (L0 : 0 < ed_L) by reflexivity.
  destruct (P S ltac:(lia)) as (A1 & A2 & A3 & A4). destruct (P (S + ed_L) ltac:(lia)) as (B1 & B2 & B3 & B4).
  pose proof (eddsa_verify_iff h H1 H2 pub msg _ HP A4) as V. pose proof (eddsa_verify_iff h H1 H2 pub msg _ HP B4) as W.
  intros Hv. split.
  - destruct (eddsa_verify h pub msg (R ++ z2le 32 S)); [|discriminate Hv]. destruct (proj1 V eq_refl) as (V1 & _ & _ & A & D & E).
    rewrite (proj2 W); [reflexivity|]. split; [exact V1|]. split; [exact B3|]. split; [lia|]. exists A. split; [exact D|].
    unfold ed_eqn_red in *. rewrite B1, B2. rewrite A1, A2 in E. 
    rewrite (proj2 (mulB_inj (S + ed_L) S)); [exact E|].
    replace (S + ed_L) with (S + 1 * ed_L) by ring. apply Z.mod_add. discriminate.
  - intros E. assert (X : le2z (skipn 32 (R ++ z2le 32 (S + ed_L))) = le2z (skipn 32 (R ++ z2le 32 S))) by now rewrite E. rewrite A2, B2 in X. lia.
Qed.
Print Assumptions C65_ed25519_malleable_refuted.

(** ** C66 *)
Theorem C66_ed25519_points_partial : forall B, runs_points B ->
  (forall p q P Q, key32 p -> key32 q -> ed_dec p P -> ed_dec q Q ->
     (ed_add P Q <> ed_zero -> Point_add B p q ECC_CURVE_ED25519 = Ret (Some (ed_enc (ed_add P Q)), SUCCESS)) /\
     (ed_add P Q = ed_zero -> Point_add B p q ECC_CURVE_ED25519 = Ret (None, FAILURE))) /\
  (forall p k P, key32 p -> raw_key k -> ed_dec p P ->
     let R := ed_add P (ed_mul (le2z k) ed_B) in
     (R <> ed_zero -> Point_mulBaseG_add B p k ECC_CURVE_ED25519 = Ret (Some (ed_enc R), false)) /\
     (R = ed_zero -> Point_mulBaseG_add B p k ECC_CURVE_ED25519 = Ret (None, true))).
Proof.
  intros B [HB1 HB2]. split.
  - intros p q P Q [L1 B1] [L2 B2] D1 D2. unfold Point_add. rewrite Z.eqb_refl, L1, L2, HB2. cbn [Nat.eqb negb orb].
    rewrite (ed_Point_add_ok p q P Q L1 B1 D1 L2 B2 D2). split; intros E; [rewrite (pt_out_ne _ E)|rewrite E, pt_out_zero]; reflexivity.
  - intros p k P [L1 B1] [[L2 B2] LT] D R. unfold Point_mulBaseG_add. rewrite L2, HB1. cbn [Nat.eqb negb].
    assert (N1 : (ECC_CURVE_ED25519 =? ECC_CURVE_SECP256K1) = false) by reflexivity. assert (N2 : (ECC_CURVE_ED25519 =? ECC_CURVE_SECP256R1) = false) by reflexivity.
    assert (N3 : (ECC_CURVE_ED25519 =? ECC_CURVE_SM2_STANDARD) = false) by reflexivity. rewrite N1, N2, N3, Z.eqb_refl.
    assert (C : forall x, length x = 32%nat -> copy32 x = x).
    { intros x Hx. unfold copy32. rewrite Hx, Nat.sub_diag. cbn [repeat]. rewrite app_nil_r, <- Hx. apply firstn_all. }
    rewrite (C p L1), (C k L2), (ScalarMultBaseAdd_ok p k P L1 B1 D L2 B2 LT). fold R.
    split; intros E; [rewrite (pt_out_ne _ E)|rewrite E, pt_out_zero]; reflexivity.
Qed.
Print Assumptions C66_ed25519_points_partial.
Example C66_points : key32 (ed_enc ed_B) /\ ed_dec (ed_enc ed_B) ed_B.
Proof. split; [split; [apply ed_enc_length|apply ed_enc_ok]|]. apply ed_dec_enc, ed_B_on. Qed.

(** ** C20 *)
Definition w_illegal (key : bytes) (n : Z) : Prop := length key <> 32%nat \/ be2z key = 0 \/ n <= be2z key.
Lemma gen_illegal E key : w_illegal key (e_N E) -> gen_public_key E key = Err ErrPrivateKeyIllegal.
Proof.
  intros H. unfold gen_public_key. destruct (Nat.eqb_spec (length key) 32) as [L|L]; [|reflexivity]. cbn [negb].
  destruct (Z.eqb_spec (be2z key) 0); [reflexivity|]. destruct (Z.leb_spec (e_N E) (be2z key)); [reflexivity|]. exfalso. destruct H as [H|[H|H]]; [auto|auto|lia].
Qed.
Theorem C20_illegal_keys_partial : forall B key ID msg, length msg = 32%nat ->
  (w_illegal key (e_N k1_curve) -> GenPubkey B key ECC_CURVE_SECP256K1 = Ret (None, ECC_PRIKEY_ILLEGAL) /\
     Signature B key ID msg ECC_CURVE_SECP256K1 = Some (Ret (None, 0, ECC_PRIKEY_ILLEGAL))) /\
  (w_illegal key (e_N (bk_r1 B)) -> GenPubkey B key ECC_CURVE_SECP256R1 = Ret (None, ECC_PRIKEY_ILLEGAL) /\
     Signature B key ID msg ECC_CURVE_SECP256R1 = Some (Ret (None, 0, ECC_PRIKEY_ILLEGAL))) /\
  (w_illegal key (e_N sm2_curve) -> GenPubkey B key ECC_CURVE_SM2_STANDARD = Ret (None, ECC_PRIKEY_ILLEGAL) /\
     Signature B key ID msg ECC_CURVE_SM2_STANDARD = Some (Ret (None, 0, ECC_PRIKEY_ILLEGAL))).
Proof.
  intros B key ID msg HM.
  assert (S1 : forall E, w_illegal key (e_N E) -> ecdsa_sign (bk_drbg B) E (bk_entropy B) (bk_fuel B) key msg = Some (Err ErrPrivateKeyIllegal)).
  { intros E H. unfold ecdsa_sign. rewrite HM. destruct (Nat.eqb_spec (length key) 32) as [L|L]; [|reflexivity]. cbn [negb Nat.eqb].
    destruct (Z.eqb_spec (be2z key) 0); [reflexivity|]. destruct (Z.leb_spec (e_N E) (be2z key)); [reflexivity|]. exfalso. destruct H as [H|[H|H]]; [auto|auto|lia]. }
  split; [|split]; intros H.
  - unfold GenPubkey, Signature. cbn [Z.eqb Pos.eqb ECC_CURVE_SECP256K1 ECC_CURVE_ED25519_NORMAL ECC_CURVE_ED25519 ECC_CURVE_X25519 ECC_CURVE_CURVE25519_SHA256 ECC_CURVE_SECP256R1 ECC_CURVE_SM2_STANDARD].
    rewrite (gen_illegal _ _ H), (S1 _ H). split; reflexivity.
  - unfold GenPubkey, Signature. cbn [Z.eqb Pos.eqb ECC_CURVE_SECP256K1 ECC_CURVE_ED25519_NORMAL ECC_CURVE_ED25519 ECC_CURVE_X25519 ECC_CURVE_CURVE25519_SHA256 ECC_CURVE_SECP256R1 ECC_CURVE_SM2_STANDARD].
    rewrite (gen_illegal _ _ H), (S1 _ H). split; reflexivity.
  - unfold GenPubkey, Signature. cbn [Z.eqb Pos.eqb ECC_CURVE_SECP256K1 ECC_CURVE_ED25519_NORMAL ECC_CURVE_ED25519 ECC_CURVE_X25519 ECC_CURVE_CURVE25519_SHA256 ECC_CURVE_SECP256R1 ECC_CURVE_SM2_STANDARD].
    rewrite (gen_illegal _ _ H). split; [reflexivity|]. change (e_N sm2_curve) with sm2_N in H. unfold sm2_sign. rewrite HM.
    destruct (Nat.eqb_spec (length key) 32) as [L|L]; [|reflexivity]. cbn [negb Nat.eqb].
    destruct (Z.eqb_spec (be2z key) 0); [reflexivity|]. destruct (Z.leb_spec sm2_N (be2z key)); [reflexivity|]. exfalso. destruct H as [H|[H|H]]; [auto|auto|lia].
Qed.
Print Assumptions C20_illegal_keys_partial.
Example C20_zero_key : w_illegal (repeat 0 32) (e_N k1_curve).
Proof. right. left. reflexivity. Qed.
(** package eddsa's error is not the one the dispatcher looks for *)
Theorem C20_illegal_keys_refuted : forall h rnd B key ID msg, runs_normal h B -> runs_raw h rnd B -> runs_x h rnd B -> length key <> 32%nat ->
  forall typ, In typ [ECC_CURVE_ED25519_NORMAL; ECC_CURVE_ED25519; ECC_CURVE_X25519] ->
  GenPubkey B key typ = Ret (None, FAILURE) /\ Signature B key ID msg typ = Some (Ret (None, 0, FAILURE)) /\ FAILURE <> ECC_PRIKEY_ILLEGAL.
Proof.
  intros h rnd B key ID msg R1 R2 R3 HL typ Ht. apply Nat.eqb_neq in HL.
  assert (F : FAILURE <> ECC_PRIKEY_ILLEGAL) by discriminate.
  destruct Ht as [<-|[<-|[<-|[]]]]; unfold GenPubkey, Signature.
  - rewrite Z.eqb_refl, R1. cbn [ed_normal_pkg sp_genpub sp_sign]. unfold CURVE25519_sign, CURVE25519_genPub. rewrite HL. repeat split; try reflexivity. exact F.
  - replace (ECC_CURVE_ED25519 =? ECC_CURVE_ED25519_NORMAL) with false by reflexivity. rewrite Z.eqb_refl, R2. cbn [ed_pkg sp_genpub sp_sign]. unfold ED25519_sign, ED25519_genPub. rewrite HL. repeat split; try reflexivity. exact F.
  - replace (ECC_CURVE_X25519 =? ECC_CURVE_ED25519_NORMAL) with false by reflexivity. replace (ECC_CURVE_X25519 =? ECC_CURVE_ED25519) with false by reflexivity.
    rewrite Z.eqb_refl, R3. cbn [x_pkg sp_genpub sp_sign]. unfold X25519_sign, X25519_genPub. rewrite HL. repeat split; try reflexivity. exact F.
Qed.
Print Assumptions C20_illegal_keys_refuted.
