(** Properties of the SM2 functions of the API (C21 to C29, C58 to C61).

    The statements that depend on SM2 point arithmetic assume that the run under
    consideration meets no underflow in [sm2_stdReduceDegree] (sm2_std.go,
    see C30): [no_underflow m] says so of the watched computation [m].
    The refutations show what happens otherwise, and need no such hypothesis. *)
From Coq Require Import ZArith List Lia Bool.
From Verif Require Import Base Words EC Curves Group Primes ModelECDSA SpecECDSA ProofECDSA ProofECDSA2 ProofECDSA3 ProofK1Wit
  SpecSM3 ModelSM3 ProofSM3 SpecSM2 ModelSM2F ModelSM2P ProofSM2P ProofSM2L ModelSM2S ProofSM2S ProofSM2E ModelApi PropsK1
  ProofSM2A ProofSM2W ProofSM2X ProofSM2K.
Import ListNotations.
Open Scope Z_scope.

Notation C := sm2p256.
Notation G := (w_G sm2p256).
Notation O := (pinf sm2p256).
Notation N := (w_n sm2p256).
Notation on_curve := (w_on sm2p256).
Notation enc := (point_bytes sm2p256).
Notation "k '**' P" := (w_mul sm2p256 k P) (at level 35).
Notation "P '++'' Q" := (w_add sm2p256 P Q) (at level 45, left associativity).

Definition no_underflow {A} (m : watched A) : Prop := snd m = true.
(** A legal private key: 32 bytes, big endian, in 1 .. N-1. *)
Definition legal (k : bytes) : Prop := bytes_ok k /\ length k = 32%nat /\ 0 < be2z k < N.

Ltac pt_ne := let E := fresh in intros E; apply (f_equal (px sm2p256)) in E; revert E; vm_compute; discriminate.
Lemma ne_1 : 2 ** G <> 1 ** (1 ** G).
Proof. rewrite sm2_2G. pt_ne. Qed.
Lemma ne_2 : 2 ** G <> G.
Proof. rewrite sm2_2G. pt_ne. Qed.
Lemma G_ne : G <> O. Proof. discriminate. Qed.
Lemma G_on' : on_curve G. Proof. exact (G_on C sm2p256_valid). Qed.

(** C60: public keys. *)
Theorem C60_sm2_public_key_partial : forall B prikey, bytes_ok prikey ->
  (legal prikey -> no_underflow (sm2_ScalarBaseMult prikey) ->
     GenPubkey B prikey SM2 = Ret (Some (enc (be2z prikey ** G)), SUCCESS)) /\
  (~ legal prikey -> GenPubkey B prikey SM2 = Ret (None, ECC_PRIKEY_ILLEGAL)).
Proof.
  intros B k Hk. split; [exact (genpub_good C sm2_is B k)|exact (genpub_illegal C sm2_is B k Hk)].
Qed.
Print Assumptions C60_sm2_public_key_partial.
Example C60_example : legal key2 /\ no_underflow (sm2_ScalarBaseMult key2) /\
  GenPubkey demo_B key2 SM2 = Ret (Some (enc (2 ** G)), SUCCESS).
Proof. split; [exact key2_legal|]. split; [unfold no_underflow; rewrite base_key2; reflexivity|exact (genpub_key2 demo_B)]. Qed.

(** C21: signatures verify. *)
Theorem C21_sm2_signatures_verify_refuted : exists B prikey pub hash sig v,
  legal prikey /\ bytes_ok hash /\
  Signature B prikey None hash SM2 = Some (Ret (Some sig, v, SUCCESS)) /\
  GenPubkey B prikey SM2 = Ret (Some pub, SUCCESS) /\
  Verify B pub None hash sig SM2 = Ret FAILURE.
Proof.
  exists (sm2_demo []), key1, (enc G), bad_hash, bad_sig, (sm2_Gy mod 2).
  split; [exact key1_legal|]. split; [apply z2be_ok|].
  split; [apply bad_sign; [exact key1_legal|discriminate]|]. split; [apply genpub_key1|].
  change (Verify (sm2_demo []) (enc G) None bad_hash bad_sig SM2) with
    (verify_ret (Ret (fst (sm2_verify (enc G) None bad_hash bad_sig)))).
  rewrite bad_rejected by reflexivity. reflexivity.
Qed.
Print Assumptions C21_sm2_signatures_verify_refuted.

(** Outside that one failure (r + s = 0 modulo N), the doubling that [Add] does
    not handle, and the underflow, every signature verifies. *)
Theorem C21_sm2_signatures_verify_partial : forall B prikey pub ID hash sig v,
  bytes_ok prikey -> id_ok ID -> bytes_ok hash ->
  GenPubkey B prikey SM2 = Ret (Some pub, SUCCESS) ->
  Signature B prikey ID hash SM2 = Some (Ret (Some sig, v, SUCCESS)) ->
  no_underflow (sm2_ScalarBaseMult prikey) ->
  no_underflow (sm2_sign (bk_drbg B) (bk_entropy B) (bk_fuel B) prikey ID hash) ->
  no_underflow (sm2_verify pub ID hash sig) ->
  let r := be2z (firstn 32 sig) in
  let s := be2z (skipn 32 sig) in
  (r + s) mod N <> 0 -> s ** G <> ((r + s) mod N) ** (be2z prikey ** G) ->
  Verify B pub ID hash sig SM2 = Ret SUCCESS.
Proof. exact (sm2_sign_verify C sm2_is). Qed.
Print Assumptions C21_sm2_signatures_verify_partial.
Example C21_example : let B := sm2_demo [2] in
  bytes_ok key1 /\ bytes_ok ok_hash /\
  GenPubkey B key1 SM2 = Ret (Some (enc G), SUCCESS) /\
  Signature B key1 None ok_hash SM2 = Some (Ret (Some ok_sig, sm2_3Gy mod 2, SUCCESS)) /\
  no_underflow (sm2_ScalarBaseMult key1) /\
  no_underflow (sm2_sign (bk_drbg B) (bk_entropy B) (bk_fuel B) key1 None ok_hash) /\
  no_underflow (sm2_verify (enc G) None ok_hash ok_sig) /\
  (be2z (firstn 32 ok_sig) + be2z (skipn 32 ok_sig)) mod N = 1 /\
  2 ** G <> 1 ** (1 ** G) /\
  Verify B (enc G) None ok_hash ok_sig SM2 = Ret SUCCESS.
Proof.
  intros B. split; [exact (proj1 key1_legal)|]. split; [apply z2be_ok|]. split; [apply genpub_key1|].
  split. { change (Signature B key1 None ok_hash SM2) with (sign_ret (fst (sm2_sign (fun _ _ => [2]) (Some []) 1 key1 None ok_hash))).
           rewrite ok_sm2_sign. reflexivity. }
  split; [unfold no_underflow; rewrite base_key1; reflexivity|].
  split; [unfold no_underflow; change (bk_drbg B) with (fun (_ : bytes) (_ : nat) => [2]); change (bk_entropy B) with (Some (@nil Z)); change (bk_fuel B) with 1%nat; rewrite ok_sm2_sign; reflexivity|].
  split; [unfold no_underflow; rewrite ok_sm2_verify; reflexivity|].
  split; [vm_compute; reflexivity|]. split; [exact ne_1|].
  change (Verify B (enc G) None ok_hash ok_sig SM2) with (verify_ret (Ret (fst (sm2_verify (enc G) None ok_hash ok_sig)))).
  rewrite ok_sm2_verify. reflexivity.
Qed.

(** C22: signing does not crash. *)
Theorem C22_sm2_sign_never_crashes_refuted : exists B prikey hash,
  legal prikey /\ bytes_ok hash /\ Signature B prikey None hash SM2 = Some Panic.
Proof.
  exists (sm2_demo []), last_key, (repeat 0 32). split; [exact last_legal|].
  split; [exact (z2be_ok 32 0)|exact last_panics].
Qed.
Print Assumptions C22_sm2_sign_never_crashes_refuted.
(** N-1 is the only key that can crash the signer. *)
Theorem C22_sm2_sign_never_crashes_partial : forall B prikey ID hash, bytes_ok prikey -> be2z prikey <> N - 1 ->
  Signature B prikey ID hash SM2 <> Some Panic.
Proof. exact (sm2_sign_no_panic C sm2_is). Qed.
Print Assumptions C22_sm2_sign_never_crashes_partial.
Example C22_example : bytes_ok key1 /\ be2z key1 <> N - 1 /\
  Signature (sm2_demo []) key1 None bad_hash SM2 = Some (Ret (Some bad_sig, sm2_Gy mod 2, SUCCESS)).
Proof. split; [exact (proj1 key1_legal)|]. split; [discriminate|]. apply bad_sign; [exact key1_legal|discriminate]. Qed.

(** C59: what is accepted. *)
Theorem C59_sm2_verify_is_sm2_partial : forall B P ID hash sig,
  on_curve P -> P <> O -> id_ok ID -> bytes_ok hash -> length hash = 32%nat -> bytes_ok sig -> length sig = 64%nat ->
  no_underflow (sm2_verify (enc P) ID hash sig) ->
  let r := be2z (firstn 32 sig) in
  let s := be2z (skipn 32 sig) in
  s ** G <> ((r + s) mod N) ** P ->
  (Verify B (enc P) ID hash sig SM2 = Ret SUCCESS <->
   match ID with Some i => Z.of_nat (length i) < 8192 | None => True end /\
   sm2_valid C P (sm2_number C P ID hash) r s).
Proof. exact (sm2_verify_iff C sm2_is). Qed.
Print Assumptions C59_sm2_verify_is_sm2_partial.
Example C59_example : on_curve G /\ G <> O /\ bytes_ok ok_hash /\ length ok_hash = 32%nat /\ bytes_ok ok_sig /\ length ok_sig = 64%nat /\
  no_underflow (sm2_verify (enc G) None ok_hash ok_sig) /\
  Verify demo_B (enc G) None ok_hash ok_sig SM2 = Ret SUCCESS.
Proof.
  split; [exact G_on'|]. split; [exact G_ne|]. split; [apply z2be_ok|]. split; [apply z2be_length|].
  split; [apply bytes_ok_app; apply z2be_ok|]. split; [reflexivity|].
  split; [unfold no_underflow; rewrite ok_sm2_verify; reflexivity|].
  change (Verify demo_B (enc G) None ok_hash ok_sig SM2) with (verify_ret (Ret (fst (sm2_verify (enc G) None ok_hash ok_sig)))).
  rewrite ok_sm2_verify. reflexivity.
Qed.

(** C23: point addition. *)
Theorem C23_sm2_point_add_refuted :
  (** doubling: G + G is refused *)
  (forall B, Point_add B (enc G) (enc G) SM2 = Ret (None, FAILURE) /\ G ++' G = 2 ** G /\ 2 ** G <> O) /\
  (** an underflow: a curve point W, different from G and -G, for which W + G is wrong *)
  exists W, on_curve W /\ W <> O /\ W ++' G <> O /\ forall B, exists out,
    Point_add B (enc W) (enc G) SM2 = Ret (Some out, SUCCESS) /\ out <> enc (W ++' G).
Proof.
  split.
  - intros B. split; [|split; [reflexivity|rewrite sm2_2G; discriminate]].
    apply (sm2_point_double_fails C sm2_is B G _ _ G_on' G_ne); [left; reflexivity|left; reflexivity|].
    change (sm2_Add (px C G) (py C G) (px C G) (py C G)) with (sm2_Add sm2_Gx sm2_Gy sm2_Gx sm2_Gy). rewrite add_1_1. reflexivity.
  - exists (paff C aw_x aw_y). split; [exact aw_on|]. split; [discriminate|]. rewrite aw_sum. split; [discriminate|].
    intros B. exists (marshal_xy aw_cx aw_cy).
    rewrite (point_add_eq C sm2_is B (paff C aw_x aw_y) G _ _ aw_on G_on' ltac:(discriminate) G_ne (or_introl eq_refl) (or_introl eq_refl)).
    change (sm2_Add (px C (paff C aw_x aw_y)) (py C (paff C aw_x aw_y)) (px C G) (py C G)) with (sm2_Add aw_x aw_y sm2_Gx sm2_Gy).
    rewrite aw_code. split; [reflexivity|]. vm_compute. discriminate.
Qed.
Print Assumptions C23_sm2_point_add_refuted.
Theorem C23_sm2_point_add_partial : forall B P Q bp bq,
  on_curve P -> on_curve Q -> P <> O -> Q <> O -> encodes C P bp -> encodes C Q bq ->
  P <> Q -> no_underflow (sm2_Add (px C P) (py C P) (px C Q) (py C Q)) ->
  let S := P ++' Q in
  (px C S = 0 -> Point_add B bp bq SM2 = Ret (None, FAILURE)) /\
  (px C S <> 0 -> Point_add B bp bq SM2 = Ret (Some (enc S), SUCCESS)).
Proof. exact (sm2_point_add C sm2_is). Qed.
Print Assumptions C23_sm2_point_add_partial.
Example C23_example : on_curve (2 ** G) /\ on_curve G /\ 2 ** G <> O /\ G <> O /\ 2 ** G <> G /\
  no_underflow (sm2_Add (px C (2 ** G)) (py C (2 ** G)) (px C G) (py C G)).
Proof.
  assert (E : on_curve (2 ** G)) by (apply mul_on; [exact sm2p256_valid|exact G_on']).
  pose proof ne_2 as E2. rewrite sm2_2G in *.
  split; [exact E|]. split; [exact G_on'|]. split; [discriminate|]. split; [discriminate|]. split; [exact E2|].
  unfold no_underflow. change (sm2_Add (px C (paff C sm2_2Gx sm2_2Gy)) (py C (paff C sm2_2Gx sm2_2Gy)) (px C G) (py C G)) with
    (sm2_Add sm2_2Gx sm2_2Gy sm2_Gx sm2_Gy). rewrite add_2_1. reflexivity.
Qed.

(** C58: multiplication of a point. *)
Theorem C58_sm2_point_mul_refuted : exists P k,
  on_curve P /\ P <> O /\ legal k /\ be2z k = 2 /\ forall B, exists out,
    Point_mul B (enc P) k SM2 = Ret (Some out, SUCCESS) /\ out <> enc (2 ** P).
Proof.
  exists (paff C dw_x dw_y), key2. split; [exact dw_on|]. split; [discriminate|]. split; [exact key2_legal|]. split; [reflexivity|].
  intros B. exists (marshal_xy dw_cx dw_cy).
  rewrite (point_mul_eq C sm2_is B (paff C dw_x dw_y) (enc (paff C dw_x dw_y)) key2 dw_on ltac:(discriminate) (or_introl eq_refl) eq_refl).
  change (sm2_ScalarMult (px C (paff C dw_x dw_y)) (py C (paff C dw_x dw_y)) key2) with (sm2_ScalarMult dw_x dw_y key2).
  rewrite dw_code_key2. split; [reflexivity|].
  change (2 ** paff C dw_x dw_y) with (paff C dw_x dw_y ++' paff C dw_x dw_y). rewrite dw_double. vm_compute. discriminate.
Qed.
Print Assumptions C58_sm2_point_mul_refuted.
Theorem C58_sm2_point_mul_partial : forall B P bp k,
  on_curve P -> P <> O -> encodes C P bp -> bytes_ok k -> length k = 32%nat ->
  no_underflow (sm2_ScalarMult (px C P) (py C P) k) ->
  let S := be2z k ** P in
  (S = O -> Point_mul B bp k SM2 = Ret (None, FAILURE)) /\
  (S <> O -> Point_mul B bp k SM2 = Ret (Some (enc S), SUCCESS)).
Proof. exact (sm2_point_mul C sm2_is). Qed.
Print Assumptions C58_sm2_point_mul_partial.
Example C58_example : on_curve G /\ G <> O /\ bytes_ok key1 /\ length key1 = 32%nat /\
  no_underflow (sm2_ScalarMult (px C G) (py C G) key1).
Proof.
  split; [exact G_on'|]. split; [exact G_ne|]. split; [exact (proj1 key1_legal)|]. split; [reflexivity|].
  unfold no_underflow. change (sm2_ScalarMult (px C G) (py C G) key1) with (sm2_ScalarMult sm2_Gx sm2_Gy key1).
  rewrite mult_key1. reflexivity.
Qed.

(** C61: compression round trip. *)
Theorem C61_sm2_compression_round_trip : forall B P, on_curve P -> P <> O ->
  exists cb, PointCompress (Some (enc P)) SM2 = Some cb /\
             PointCompress (Some (4 :: enc P)) SM2 = Some cb /\
             PointDecompress B cb SM2 = Ret (Some (4 :: enc P)).
Proof. exact (sm2_roundtrip C sm2_is). Qed.
Print Assumptions C61_sm2_compression_round_trip.
Example C61_example : on_curve G /\ G <> O.
Proof. split; [exact G_on'|exact G_ne]. Qed.

(** C24: decryption inverts encryption. *)
Theorem C24_sm2_decryption_partial : forall B prikey pub m ct, bytes_ok prikey ->
  GenPubkey B prikey SM2 = Ret (Some pub, SUCCESS) ->
  Encryption B pub m SM2 = Some (Ret (Some ct, SUCCESS)) ->
  no_underflow (sm2_ScalarBaseMult prikey) ->
  no_underflow (sm2_encrypt (bk_rand B) (bk_fuel B) pub m) ->
  no_underflow (sm2_decrypt prikey ct) ->
  Decryption prikey ct SM2 = Ret (Some m, SUCCESS).
Proof. exact (sm2_round_trip C sm2_is). Qed.
Print Assumptions C24_sm2_decryption_partial.
Example C24_example : let B := sm2_demo [] in
  bytes_ok key1 /\ GenPubkey B key1 SM2 = Ret (Some (enc G), SUCCESS) /\
  Encryption B (enc G) [7] SM2 = Some (Ret (Some ok_cipher, SUCCESS)) /\
  no_underflow (sm2_ScalarBaseMult key1) /\
  no_underflow (sm2_encrypt (bk_rand B) (bk_fuel B) (enc G) [7]) /\
  no_underflow (sm2_decrypt key1 ok_cipher).
Proof.
  intros B. split; [exact (proj1 key1_legal)|]. split; [apply genpub_key1|].
  assert (E : sm2_encrypt (bk_rand B) (bk_fuel B) (enc G) [7] = (Some (Ret (Ok ok_cipher)), true)) by exact ok_encrypt.
  split. { destruct (sm2_encrypt (bk_rand B) (bk_fuel B) (enc G) [7]) as [o b] eqn:E'.
           unfold Encryption. change (SM2 =? ECC_CURVE_SM2_STANDARD) with true. cbv iota. rewrite E'. injection E as -> ->. reflexivity. }
  split; [unfold no_underflow; rewrite base_key1; reflexivity|].
  split; [unfold no_underflow; rewrite E; reflexivity|exact ok_decrypt].
Qed.

(** C67: the ciphertext is one of the ciphertexts the standard allows. *)
Theorem C67_sm2_encryption_standard_partial : forall B Q m ct, bytes_ok m -> on_curve Q -> Q <> O ->
  Encryption B (enc Q) m SM2 = Some (Ret (Some ct, SUCCESS)) ->
  no_underflow (sm2_encrypt (bk_rand B) (bk_fuel B) (enc Q) m) ->
  exists k, sm2_ciphertext C Q k m ct.
Proof. exact (sm2_encrypt_std C sm2_is). Qed.
Print Assumptions C67_sm2_encryption_standard_partial.
Example C67_example : let B := sm2_demo [] in
  bytes_ok [7] /\ on_curve G /\ G <> O /\
  Encryption B (enc G) [7] SM2 = Some (Ret (Some ok_cipher, SUCCESS)) /\
  no_underflow (sm2_encrypt (bk_rand B) (bk_fuel B) (enc G) [7]).
Proof.
  intros B. destruct C24_example as (_ & _ & E & _ & R & _).
  split; [repeat constructor; discriminate|]. split; [exact G_on'|]. split; [exact G_ne|]. split; [exact E|exact R].
Qed.

(** C25: decryption authenticates.  The ciphertext's point and its hash are never
    compared: everything of 65 bytes or more decrypts with SUCCESS. *)
Theorem C25_sm2_decryption_authenticates_refuted :
  (forall prikey ct, legal prikey -> (65 <= length ct)%nat ->
     exists m, Decryption prikey ct SM2 = Ret (Some m, SUCCESS)) /\
  ~ on_curve (paff C (be2z (firstn 32 (repeat 0 97))) (be2z (firstn 32 (skipn 32 (repeat 0 97))))).
Proof.
  split; [exact (sm2_decrypt_always C sm2_is)|]. intros E. apply paff_on_iff in E. revert E. vm_compute. discriminate.
Qed.
Print Assumptions C25_sm2_decryption_authenticates_refuted.

(** C26: decryption does not crash. *)
Theorem C26_sm2_decryption_never_crashes_refuted : forall prikey ct, legal prikey -> (0 < length ct < 65)%nat ->
  Decryption prikey ct SM2 = Panic.
Proof. exact (sm2_decrypt_short_panics C sm2_is). Qed.
Print Assumptions C26_sm2_decryption_never_crashes_refuted.
Example C26_example : legal key1 /\ (0 < length [4%Z] < 65)%nat.
Proof. split; [exact key1_legal|]. cbn. lia. Qed.
Theorem C26_sm2_decryption_never_crashes_partial : forall prikey ct, bytes_ok prikey ->
  (length ct = 0 \/ 65 <= length ct)%nat -> Decryption prikey ct SM2 <> Panic.
Proof. exact (sm2_decrypt_no_panic C sm2_is). Qed.
Print Assumptions C26_sm2_decryption_never_crashes_partial.
Example C26_partial_example : bytes_ok key1 /\ (65 <= length (repeat 0%Z 65))%nat.
Proof. split; [exact (proj1 key1_legal)|]. rewrite repeat_length. lia. Qed.

(** C27: key agreement.  [ka_regular] excludes the exponents at which the other
    side's intermediate sum is a doubling or the point at infinity. *)
Theorem C27_sm2_key_agreement_partial :
  forall BI BR idI idR dI dR pubI pubR ri RI given keylen key RR si so,
  bytes_ok idI -> bytes_ok idR -> 0 < Z.of_nat (length idI) < 8192 -> 0 < Z.of_nat (length idR) < 8192 ->
  bytes_ok dI -> bytes_ok dR -> bytes_ok (rand32 BI) -> bytes_ok (rand32 BR) ->
  match given with Some g => bytes_ok g | None => True end ->
  GenPubkey BI dI SM2 = Ret (Some pubI, SUCCESS) ->
  GenPubkey BR dR SM2 = Ret (Some pubR, SUCCESS) ->
  KeyAgreement_initiator_step1 BI SM2 = (ri, RI) ->
  KeyAgreement_responder_ElGamal_step1 BR idI idR dR pubR pubI RI keylen given SM2 = Ret (key, RR, si, so, SUCCESS) ->
  no_underflow (sm2_ScalarBaseMult dI) -> no_underflow (sm2_ScalarBaseMult dR) ->
  no_underflow (sm2_ka_initiator_step1 (rand32 BI)) ->
  no_underflow (sm2_ka_responder_step1 (rand32 BR) idI idR dR pubR pubI RI given keylen) ->
  no_underflow (sm2_ka_initiator_step2 idI idR dI pubI pubR ri RI RR so keylen) ->
  be2z ri <> 0 -> ka_regular C (be2z dI) (be2z ri) ->
  (forall rr, 0 < rr < N -> RR = enc (rr ** G) -> ka_regular C (be2z dR) rr) ->
  KeyAgreement_initiator_step2 idI idR dI pubI pubR ri RI RR so keylen SM2 = Ret (key, si, SUCCESS) /\
  KeyAgreement_responder_step2 si si SM2 = SUCCESS.
Proof. exact (sm2_ka C sm2_is). Qed.
Print Assumptions C27_sm2_key_agreement_partial.

(** C68: the agreed key and the confirmation values are those of the standard;
    [rr] is the responder's temporary private key.  (Both sides' computations of
    the shared point appear: the fifth equation.) *)
Theorem C68_sm2_key_agreement_standard_partial :
  forall BI BR idI idR dI dR pubI pubR ri RI given keylen key RR si so,
  bytes_ok idI -> bytes_ok idR -> 0 < Z.of_nat (length idI) < 8192 -> 0 < Z.of_nat (length idR) < 8192 ->
  bytes_ok dI -> bytes_ok dR -> bytes_ok (rand32 BI) -> bytes_ok (rand32 BR) ->
  match given with Some g => bytes_ok g | None => True end -> 0 <= keylen < 8192 ->
  GenPubkey BI dI SM2 = Ret (Some pubI, SUCCESS) ->
  GenPubkey BR dR SM2 = Ret (Some pubR, SUCCESS) ->
  KeyAgreement_initiator_step1 BI SM2 = (ri, RI) ->
  KeyAgreement_responder_ElGamal_step1 BR idI idR dR pubR pubI RI keylen given SM2 = Ret (key, RR, si, so, SUCCESS) ->
  no_underflow (sm2_ScalarBaseMult dI) -> no_underflow (sm2_ScalarBaseMult dR) ->
  no_underflow (sm2_ka_initiator_step1 (rand32 BI)) ->
  no_underflow (sm2_ka_responder_step1 (rand32 BR) idI idR dR pubR pubI RI given keylen) ->
  be2z ri <> 0 -> ka_regular C (be2z dI) (be2z ri) ->
  let PI := be2z dI ** G in
  let PR := be2z dR ** G in
  let TI := be2z ri ** G in
  exists rr, 0 < rr < N /\
    let TR := rr ** G in
    let U := sm2_shared C (be2z dR) rr PI TI in
    let ZI := sm2_Z C PI idI in
    let ZR := sm2_Z C PR idR in
    pubI = enc PI /\ pubR = enc PR /\ RI = enc TI /\ RR = enc TR /\
    sm2_shared C (be2z dI) (be2z ri) PR TR = U /\
    key = sm2_agreed_key C U ZI ZR (Z.to_nat keylen) /\
    si = sm2_confirm C 3 U ZI ZR TI TR /\
    so = sm2_confirm C 2 U ZI ZR TI TR.
Proof. exact (sm2_ka_std C sm2_is). Qed.
Print Assumptions C68_sm2_key_agreement_standard_partial.
(** Hypotheses of C27 and C68 with both private keys and the initiator's temporary
    key 1 and the responder's temporary key 2.  (Evaluating the point
    multiplications of the responder to check [no_underflow] there takes too long
    for the proof checker; the ones with small scalars are checked.) *)
Example C68_example :
  GenPubkey demo_B key1 SM2 = Ret (Some (enc G), SUCCESS) /\
  KeyAgreement_initiator_step1 (sm2_demo key1) SM2 = (key1, enc G) /\
  (exists key RR si so,
    KeyAgreement_responder_ElGamal_step1 demo_B [1] [2] key1 (enc G) (enc G) (enc G) 16 (Some key2) SM2 = Ret (key, RR, si, so, SUCCESS)) /\
  no_underflow (sm2_ScalarBaseMult key1) /\ no_underflow (sm2_ka_initiator_step1 (rand32 (sm2_demo key1))) /\
  be2z key1 <> 0 /\ ka_regular C (be2z key1) (be2z key1).
Proof.
  assert (S1 : sm2_ka_initiator_step1 (rand32 (sm2_demo key1)) = ((key1, enc G), true)).
  { unfold sm2_ka_initiator_step1.
    assert (E : pad32 (big_bytes (be2z (rand32 (sm2_demo key1)) mod sm2_N)) = key1) by (vm_compute; reflexivity).
    rewrite E, base_key1. vm_compute. reflexivity. }
  split; [apply genpub_key1|]. split.
  { unfold KeyAgreement_initiator_step1. rewrite S1. reflexivity. }
  split; [exact (ka_run 16)|]. split; [unfold no_underflow; rewrite base_key1; reflexivity|].
  split; [unfold no_underflow; rewrite S1; reflexivity|]. split; [discriminate|].
  assert (E1 : be2z key1 = 1) by reflexivity. rewrite E1. unfold ka_regular.
  assert (EG : 1 ** G = G) by reflexivity. rewrite EG. split; vm_compute; discriminate.
Qed.

(** C28: the length of the agreed key. *)
Theorem C28_sm2_agreed_key_length_refuted : exists RR si so,
  KeyAgreement_responder_ElGamal_step1 demo_B [1] [2] key1 (enc G) (enc G) (enc G) 8192 (Some key2) SM2 =
    Ret ([], RR, si, so, SUCCESS).
Proof. exact ka_8192. Qed.
Print Assumptions C28_sm2_agreed_key_length_refuted.
Theorem C28_sm2_agreed_key_length_partial : forall keylen, 0 <= keylen < 8192 ->
  (forall B idI idR dR pubR pubI RI given key RR si so,
     KeyAgreement_responder_ElGamal_step1 B idI idR dR pubR pubI RI keylen given SM2 = Ret (key, RR, si, so, SUCCESS) ->
     Z.of_nat (length key) = keylen) /\
  (forall idI idR dI pubI pubR ri RI RR sin key sout,
     KeyAgreement_initiator_step2 idI idR dI pubI pubR ri RI RR sin keylen SM2 = Ret (key, sout, SUCCESS) ->
     Z.of_nat (length key) = keylen).
Proof.
  intros keylen K. pose proof (Z.mod_small keylen 8192 K) as E.
  assert (K' : 0 <= keylen < 2 ^ 16) by (clear - K; lia). split; intros until 1.
  - rewrite <- E. eapply sm2_ka_keylen; eassumption.
  - rewrite <- E. eapply sm2_ka_keylen_i; eassumption.
Qed.
Print Assumptions C28_sm2_agreed_key_length_partial.

Lemma enc_ne : enc G <> enc (2 ** G).
Proof. rewrite sm2_2G. vm_compute. discriminate. Qed.
Lemma not_both (a b : bytes) : a <> b -> forall o : outcome (option bytes * Z), o <> Ret (Some a, SUCCESS) \/ o <> Ret (Some b, SUCCESS).
Proof.
  intros Hne [[[p|] c]|]; try (left; discriminate).
  destruct (list_eq_dec Z.eq_dec p a) as [->|H]; [right|left]; intros E; injection E; intros; contradiction.
Qed.
(** C29: recovery.  Two keys can have the same signature on the same hash, so no
    recovery function can be right for both; the code's is right for neither in
    general, as it solves the ECDSA equation. *)
Theorem C29_sm2_recovery_refuted : exists B prikey pub hash sig v,
  legal prikey /\ bytes_ok hash /\
  Signature B prikey None hash SM2 = Some (Ret (Some sig, v, SUCCESS)) /\
  GenPubkey B prikey SM2 = Ret (Some pub, SUCCESS) /\
  RecoverPubkey B (sig ++ [v]) hash SM2 <> Ret (Some pub, SUCCESS).
Proof.
  assert (D : forall o : outcome (option bytes * Z), o <> Ret (Some (enc G), SUCCESS) \/ o <> Ret (Some (enc (2 ** G)), SUCCESS)).
  { intros o. exact (not_both (enc G) (enc (2 ** G)) enc_ne o). }
  destruct (D (RecoverPubkey (sm2_demo []) (bad_sig ++ [sm2_Gy mod 2]) bad_hash SM2)) as [E|E].
  - exists (sm2_demo []), key1, (enc G), bad_hash, bad_sig, (sm2_Gy mod 2).
    split; [exact key1_legal|]. split; [apply z2be_ok|].
    split; [apply bad_sign; [exact key1_legal|discriminate]|]. split; [apply genpub_key1|exact E].
  - exists (sm2_demo []), key2, (enc (2 ** G)), bad_hash, bad_sig, (sm2_Gy mod 2).
    split; [exact key2_legal|]. split; [apply z2be_ok|].
    split; [apply bad_sign; [exact key2_legal|discriminate]|]. split; [apply genpub_key2|exact E].
Qed.
Print Assumptions C29_sm2_recovery_refuted.
