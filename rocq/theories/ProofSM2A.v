(** SM2 through the exported functions, for a curve with the SM2 parameters. *)
From Coq Require Import ZArith List Lia Znumtheory Bool.
From Verif Require Import Base Words EC Curves Group ModelECDSA SpecECDSA ProofECDSA ProofECDSA2 ProofECDSA3 ProofR1Api ProofR1Wit
  AllOrder Primes
  SpecSM3 ModelSM3 ProofSM3 SpecSM2 ModelSM2F ModelSM2P ProofSM2P ProofSM2L ModelSM2S ProofSM2S ProofSM2E ModelApi.
Import ListNotations.
Open Scope Z_scope.

Notation SM2 := ECC_CURVE_SM2_STANDARD.

Record sm2_like (c : wcurve) : Prop := {
  sl_v : w_valid c;
  sl_b : w_b c mod w_p c <> 0;
  sl_N : order_is c;
  sl_p : size256 (w_p c);
  sl_n : size256 (w_n c);
  sl_par : params_are c;
  sl_P : sm2_P = w_p c;
  sl_imp : implements (ref_curve c) c;
  sl_dec : forall x, (x * x * x + sm2_b + sm2_a * x) mod w_p c = (x * x * x + w_a c * x + w_b c) mod w_p c;
  sl_base : forall k, bytes_ok k -> good (sm2_ScalarBaseMult k)
    (fun r => r = (px c (w_mul c (be2z k) (w_G c)), py c (w_mul c (be2z k) (w_G c))));
  sl_mult : forall P k, w_on c P -> P <> pinf c -> bytes_ok k ->
    good (sm2_ScalarMult (px c P) (py c P) k) (fun r => r = (px c (w_mul c (be2z k) P), py c (w_mul c (be2z k) P)));
  sl_add : forall P Q, w_on c P -> w_on c Q ->
    good (sm2_Add (px c P) (py c P) (px c Q) (py c Q))
      (fun r => (P <> Q -> r = (px c (w_add c P Q), py c (w_add c P Q))) /\ (P = Q -> r = (0, 0)));
  sl_on : forall x y, good (sm2_IsOnCurve x y) (fun r => r = true <-> w_on c (paff c x y)) }.

Theorem ref_sm2_implements : implements (ref_curve sm2p256) sm2p256.
Proof.
  constructor.
  - exact sm2p256_valid.
  - exact sm2_b_ne.
  - split; reflexivity.
  - split; reflexivity.
  - split; reflexivity.
  - reflexivity.
  - reflexivity.
  - reflexivity.
  - intros P Q HP HQ. cbn [e_Add ref_curve]. rewrite !ref_dec2 by (exact sm2_b_ne || assumption). reflexivity.
  - intros P k HP Hk. cbn [e_ScalarMult ref_curve]. rewrite ref_dec2 by (exact sm2_b_ne || assumption). reflexivity.
  - intros k Hk. reflexivity.
Qed.

Lemma sm2_params : params_are sm2p256.
Proof.
  split; [vm_compute; reflexivity|]. split; [reflexivity|]. split; [reflexivity|]. split; [reflexivity|].
  intros z [<-|[<-|[<-|[<-|[]]]]]; vm_compute; reflexivity.
Qed.

Theorem sm2_is : sm2_like sm2p256.
Proof.
  constructor.
  - exact sm2p256_valid.
  - exact sm2_b_ne.
  - reflexivity.
  - split; reflexivity.
  - split; reflexivity.
  - exact sm2_params.
  - reflexivity.
  - exact ref_sm2_implements.
  - intros x. exact (x3b_shift x (w_a sm2p256) (w_b sm2p256) (w_p sm2p256)).
  - exact sm2_ScalarBaseMult_good.
  - exact sm2_ScalarMult_good.
  - exact sm2_Add_good.
  - exact sm2_IsOnCurve_good.
Qed.

Lemma fst_bind {A C} (m : watched A) (f : A -> watched C) : fst (bind m f) = fst (f (fst m)).
Proof. unfold bind. destruct m as [a r]. cbn [fst]. destruct (f a). reflexivity. Qed.

Ltac run_in E P := match type of E with context [fst (bind ?m _)] =>
  rewrite fst_bind in E; generalize dependent (fst m); intros P E end.
Ltac run P := match goal with |- context [fst (bind ?m _)] =>
  rewrite fst_bind; generalize (fst m); intros P end.

Definition resp_ret (o : outcome (bytes * bytes * bytes * bytes * bool)) : outcome (bytes * bytes * bytes * bytes * Z) :=
  match o with
  | Panic => Panic
  | Ret (key, tmpPub, si, so, ok) => Ret (key, tmpPub, si, so, if ok then SUCCESS else FAILURE)
  end.
Definition init_ret (o : outcome (bytes * bytes * bool)) : outcome (bytes * bytes * Z) :=
  match o with
  | Panic => Panic
  | Ret (key, sout, ok) => Ret (key, sout, if ok then SUCCESS else FAILURE)
  end.
Lemma responder_eq B idI idR dR pubR pubI RI given keylen :
  KeyAgreement_responder_ElGamal_step1 B idI idR dR pubR pubI RI keylen given SM2 =
  resp_ret (fst (sm2_ka_responder_step1 (rand32 B) idI idR dR pubR pubI RI given keylen)).
Proof. reflexivity. Qed.
Lemma initiator_eq idI idR dI pubI pubR ri RI RR sin keylen :
  KeyAgreement_initiator_step2 idI idR dI pubI pubR ri RI RR sin keylen SM2 =
  init_ret (fst (sm2_ka_initiator_step2 idI idR dI pubI pubR ri RI RR sin keylen)).
Proof. reflexivity. Qed.
Lemma step1_eq B : KeyAgreement_initiator_step1 B SM2 = fst (sm2_ka_initiator_step1 (rand32 B)).
Proof. reflexivity. Qed.
Lemma step2_ok si : length si = 32%nat -> KeyAgreement_responder_step2 si si SM2 = SUCCESS.
Proof.
  intros L. unfold KeyAgreement_responder_step2. change (SM2 =? ECC_CURVE_SM2_STANDARD) with true. cbn [negb]. cbv iota.
  unfold sm2_ka_responder_step2. rewrite L. cbn [Nat.eqb negb].
  destruct (list_eq_dec Z.eq_dec si si) as [_|X]; [reflexivity|contradiction].
Qed.
Lemma responder_ok (o : outcome (bytes * bytes * bytes * bytes * bool)) key RR si so :
  resp_ret o = Ret (key, RR, si, so, SUCCESS) -> o = Ret (key, RR, si, so, true).
Proof.
  unfold resp_ret.   destruct o as [[[[[a1 a2] a3] a4] ok]|]; [|discriminate]. destruct ok; [congruence|].
  intros E. exfalso. assert (FAILURE = SUCCESS) by congruence. discriminate.
Qed.
Lemma initiator_ok (o : outcome (bytes * bytes * bool)) key so :
  init_ret o = Ret (key, so, SUCCESS) -> o = Ret (key, so, true).
Proof.
  unfold init_ret.   destruct o as [[[a1 a2] ok]|]; [|discriminate]. destruct ok; [congruence|].
  intros E. exfalso. assert (FAILURE = SUCCESS) by congruence. discriminate.
Qed.

Section Api.
Variable c : wcurve.
Hypothesis H : sm2_like c.
Local Notation n := (w_n c).
Local Notation G := (w_G c).
Local Notation O := (pinf c).
Local Notation "k ** P" := (w_mul c k P) (at level 39).
Local Notation enc := (point_bytes c).
Let Hv := sl_v c H.

Lemma n_pos : 2 < n. Proof using H. exact (size256_big _ (sl_n c H)). Qed.
Lemma N_eq : sm2_N = n. Proof using H. symmetry. exact (sl_N c H). Qed.
Lemma n_prime' : prime n. Proof using H. exact (wv_nprime c Hv). Qed.
Lemma Gon : w_on c G. Proof using H. apply G_on, Hv. Qed.
Lemma kG_on k : w_on c (k ** G). Proof using H. apply mul_on; [exact Hv|exact Gon]. Qed.
Lemma kG_ne k : 0 < k < n -> k ** G <> O.
Proof using H. intros Hk E. apply (mulG_inf c Hv) in E. rewrite Z.mod_small in E by (clear - Hk; lia). clear - Hk E; lia. Qed.

Definition legal_key (k : bytes) : Prop := bytes_ok k /\ length k = 32%nat /\ 0 < be2z k < n.

(** ** Public keys *)
Lemma genpub_eq B k : legal_key k ->
  GenPubkey B k SM2 = Ret (Some (marshal_xy (fst (fst (sm2_ScalarBaseMult k))) (snd (fst (sm2_ScalarBaseMult k)))), SUCCESS).
Proof using H.
  intros (Hk & HL & Hd).
  change (GenPubkey B k SM2) with (genpub_ret (Ret (gen_public_key sm2_curve k))).
  unfold gen_public_key. change (e_N sm2_curve) with sm2_N. rewrite HL, N_eq. cbn [Nat.eqb negb].
  replace (be2z k =? 0) with false by (symmetry; apply Z.eqb_neq; clear - Hd; lia).
  replace (n <=? be2z k) with false by (symmetry; apply Z.leb_gt; clear - Hd; lia).
  change (e_ScalarBaseMult sm2_curve k) with (fst (sm2_ScalarBaseMult k)).
  destruct (fst (sm2_ScalarBaseMult k)) as [x y]. reflexivity.
Qed.

Theorem genpub_good B k : legal_key k -> snd (sm2_ScalarBaseMult k) = true ->
  GenPubkey B k SM2 = Ret (Some (enc (be2z k ** G)), SUCCESS).
Proof using H.
  intros Hk Hr. rewrite genpub_eq by exact Hk.
  rewrite (sl_base c H k (proj1 Hk) Hr). cbn [fst snd].
  rewrite (marshal_pt c Hv (sl_p c H)). reflexivity.
Qed.

Theorem genpub_illegal B k : bytes_ok k -> ~ legal_key k -> GenPubkey B k SM2 = Ret (None, ECC_PRIKEY_ILLEGAL).
Proof using H.
  intros Hk HL. change (GenPubkey B k SM2) with (genpub_ret (Ret (gen_public_key sm2_curve k))).
  unfold gen_public_key. change (e_N sm2_curve) with sm2_N. rewrite N_eq.
  destruct (length k =? 32)%nat eqn:E1; [apply Nat.eqb_eq in E1|reflexivity]. cbn [negb].
  destruct (be2z k =? 0) eqn:E2; [reflexivity|]. apply Z.eqb_neq in E2.
  destruct (n <=? be2z k) eqn:E3; [reflexivity|]. apply Z.leb_gt in E3.
  exfalso. apply HL. split; [exact Hk|]. split; [exact E1|].
  pose proof (be2z_bound k Hk) as [B0 _]. clear - E2 E3 B0. lia.
Qed.

Lemma genpub_legal B k pub : bytes_ok k -> GenPubkey B k SM2 = Ret (Some pub, SUCCESS) -> legal_key k.
Proof using H.
  intros Hk E. destruct (Nat.eq_dec (length k) 32) as [E1|E1], (Z_lt_dec 0 (be2z k)) as [E2|E2], (Z_lt_dec (be2z k) n) as [E3|E3];
    try (split; [exact Hk|split; [exact E1|split; assumption]]);
    rewrite genpub_illegal in E by (exact Hk || (intros (_ & ? & ? & ?); contradiction)); discriminate.
Qed.

(** ** Signatures *)
Lemma sign_inv B prikey ID hash sig v :
  Signature B prikey ID hash SM2 = Some (Ret (Some sig, v, SUCCESS)) ->
  fst (sm2_sign (bk_drbg B) (bk_entropy B) (bk_fuel B) prikey ID hash) = Some (Ret (Ok (sig, v))).
Proof using.
  change (Signature B prikey ID hash SM2) with
    (sign_ret (fst (sm2_sign (bk_drbg B) (bk_entropy B) (bk_fuel B) prikey ID hash))).
  destruct (fst (sm2_sign _ _ _ _ _ _)) as [[[[sg vv]|e]|]|]; cbn [sign_ret]; [|destruct e; discriminate|discriminate|discriminate].
  intros E. congruence.
Qed.

Theorem sm2_sign_verify B prikey pub ID hash sig v :
  bytes_ok prikey -> id_ok ID -> bytes_ok hash ->
  GenPubkey B prikey SM2 = Ret (Some pub, SUCCESS) ->
  Signature B prikey ID hash SM2 = Some (Ret (Some sig, v, SUCCESS)) ->
  snd (sm2_ScalarBaseMult prikey) = true ->
  snd (sm2_sign (bk_drbg B) (bk_entropy B) (bk_fuel B) prikey ID hash) = true ->
  snd (sm2_verify pub ID hash sig) = true ->
  let r := be2z (firstn 32 sig) in
  let s := be2z (skipn 32 sig) in
  (r + s) mod n <> 0 -> s ** G <> ((r + s) mod n) ** (be2z prikey ** G) ->
  Verify B pub ID hash sig SM2 = Ret SUCCESS.
Proof using H.
  intros Hk Hid Hh HG HS R1 R2 R3 r s Ht Hne.
  pose proof (genpub_legal _ _ _ Hk HG) as HL.
  rewrite (genpub_good B prikey HL R1) in HG. assert (pub = enc (be2z prikey ** G)) by congruence. subst pub. clear HG R1.
  apply sign_inv in HS.
  pose proof (sign_good c Hv (sl_b c H) (sl_N c H) (sl_p c H) (sl_n c H) (sl_par c H) (sl_base c H) (sl_mult c H)
    (bk_drbg B) (bk_entropy B) (bk_fuel B) prikey ID hash sig v Hk Hid Hh R2 HS) as (_ & Hd & Lh & Hi & r0 & s0 & k & Es & Hsig & _).
  assert (Er : r = r0 /\ s = s0).
  { destruct Hsig as (_ & Hr & Hs & _). unfold r, s. rewrite Es, firstn_z2be_app, skipn_z2be_app, !be2z_z2be, pow256_32.
    split; apply Z.mod_small; apply (size256_lt n); [exact (sl_n c H)|exact Hr|exact (sl_n c H)|clear - Hs; lia]. }
  destruct Er as [Er1 Er2].
  assert (Hr0 : r0 <> 0).
  { destruct Hsig as (Hk' & Hr & _ & _ & _ & [D|D]); [exact D|clear - Hk' Hr D; lia]. }
  assert (HV : fst (sm2_verify (enc (be2z prikey ** G)) ID hash sig) = true).
  { pose proof (verify_good c Hv (sl_b c H) (sl_N c H) (sl_p c H) (sl_par c H) (sl_base c H) (sl_mult c H) (sl_add c H)
      (be2z prikey ** G) ID hash sig) as V. cbv zeta in V.
    apply V.
    - apply kG_on.
    - apply kG_ne, Hd.
    - exact Hid.
    - exact Hh.
    - exact Lh.
    - rewrite Es. apply bytes_ok_app; apply z2be_ok.
    - rewrite Es, app_length, !z2be_length. reflexivity.
    - exact Hne.
    - exact R3.
    - split; [exact Hi|]. fold r s. rewrite Er1, Er2 in *. apply (sig_valid c Hv _ _ _ _ _ Hsig Ht Hr0). }
  change (Verify B (enc (be2z prikey ** G)) ID hash sig SM2) with
    (verify_ret (Ret (fst (sm2_verify (enc (be2z prikey ** G)) ID hash sig)))).
  rewrite HV. reflexivity.
Qed.

Theorem sm2_verify_iff B P ID hash sig :
  w_on c P -> P <> O -> id_ok ID -> bytes_ok hash -> length hash = 32%nat -> bytes_ok sig -> length sig = 64%nat ->
  snd (sm2_verify (enc P) ID hash sig) = true ->
  let r := be2z (firstn 32 sig) in
  let s := be2z (skipn 32 sig) in
  s ** G <> ((r + s) mod n) ** P ->
  (Verify B (enc P) ID hash sig SM2 = Ret SUCCESS <->
   match ID with Some i => Z.of_nat (length i) < 8192 | None => True end /\
   sm2_valid c P (sm2_number c P ID hash) r s).
Proof using H.
  intros HP HP0 Hid Hh Lh Hs Ls R r s Hne.
  change (Verify B (enc P) ID hash sig SM2) with (verify_ret (Ret (fst (sm2_verify (enc P) ID hash sig)))).
  pose proof (verify_good c Hv (sl_b c H) (sl_N c H) (sl_p c H) (sl_par c H) (sl_base c H) (sl_mult c H) (sl_add c H)
      P ID hash sig HP HP0 Hid Hh Lh Hs Ls Hne R) as V. cbv beta in V. fold r s in V.
  rewrite <- V. destruct (fst _); cbn [verify_ret]; split; intros E; try reflexivity; discriminate.
Qed.

Lemma sign_loop_no_panic d e draws fuel : 0 < d < n - 1 -> forall i,
  fst (sm2_sign_loop d e draws fuel i) <> Some Panic.
Proof using H.
  intros Hd. induction fuel as [|f IH]; intros i; cbn [sm2_sign_loop]; [discriminate|].
  cbv zeta. run P.
  destruct (negb _ || _).
  - destruct (mod_inverse_prime (d + 1) n n_prime') as [inv Hi].
    { rewrite Z.mod_small by (clear - Hd; lia). clear - Hd; lia. }
    rewrite N_eq, Hi. destruct (negb _); cbn; [discriminate|]. specialize (IH (S i)).
    exact IH.
  - exact (IH (S i)).
Qed.
Theorem sm2_sign_no_panic B prikey ID hash : bytes_ok prikey -> be2z prikey <> n - 1 ->
  Signature B prikey ID hash SM2 <> Some Panic.
Proof using H.
  intros Hk Hd.
  change (Signature B prikey ID hash SM2) with
    (sign_ret (fst (sm2_sign (bk_drbg B) (bk_entropy B) (bk_fuel B) prikey ID hash))).
  enough (X : fst (sm2_sign (bk_drbg B) (bk_entropy B) (bk_fuel B) prikey ID hash) <> Some Panic).
  { destruct (fst _) as [[[[sg vv]|e]|]|]; cbn [sign_ret]; [discriminate|destruct e; discriminate|contradiction|discriminate]. }
  unfold sm2_sign. destruct (negb _); [discriminate|]. destruct (negb _); [discriminate|]. cbv zeta.
  destruct (be2z prikey =? 0) eqn:E0; [discriminate|]. rewrite N_eq. destruct (n <=? be2z prikey) eqn:E1; [discriminate|].
  apply Z.eqb_neq in E0. apply Z.leb_gt in E1. pose proof (be2z_bound prikey Hk) as [B0 _].
  run Q. cbn [fst snd].
  destruct (sm2_e _ _ _ _) as [e|er]; [|discriminate]. destruct (bk_entropy B) as [ent|]; [|discriminate].
  assert (Hd' : 0 < be2z prikey < n - 1) by (clear - Hd E0 E1 B0; lia).
  pose proof (sign_loop_no_panic (be2z prikey) e (bk_drbg B (big_bytes (be2z prikey) ++ ent ++ hash)) (bk_fuel B) Hd' 0) as X.
  rewrite fst_bind. generalize dependent (fst (sm2_sign_loop (be2z prikey) e (bk_drbg B (big_bytes (be2z prikey) ++ ent ++ hash)) (bk_fuel B) 0)). intros o X. cbn [fst snd ret] in *.
  destruct o as [[[[r s] v]|]|]; discriminate || contradiction.
Qed.

(** ** Encryption *)
Lemma encrypt_inv B pub m ct : Encryption B pub m SM2 = Some (Ret (Some ct, SUCCESS)) ->
  fst (sm2_encrypt (bk_rand B) (bk_fuel B) pub m) = Some (Ret (Ok ct)).
Proof using.
  unfold Encryption. change (SM2 =? ECC_CURVE_SM2_STANDARD) with true. cbv iota.
  destruct (fst _) as [[[c0|e]|]|]; try discriminate; [congruence|destruct e; discriminate].
Qed.
Theorem sm2_round_trip B prikey pub m ct : bytes_ok prikey ->
  GenPubkey B prikey SM2 = Ret (Some pub, SUCCESS) ->
  Encryption B pub m SM2 = Some (Ret (Some ct, SUCCESS)) ->
  snd (sm2_ScalarBaseMult prikey) = true ->
  snd (sm2_encrypt (bk_rand B) (bk_fuel B) pub m) = true ->
  snd (sm2_decrypt prikey ct) = true ->
  Decryption prikey ct SM2 = Ret (Some m, SUCCESS).
Proof using H.
  intros Hk HG HE R1 R2 R3. pose proof (genpub_legal _ _ _ Hk HG) as HL.
  rewrite (genpub_good B prikey HL R1) in HG. assert (pub = enc (be2z prikey ** G)) by congruence. subst pub. clear HG R1.
  destruct HL as (_ & Lk & Hd). apply encrypt_inv in HE.
  destruct (encrypt_good c Hv (sl_N c H) (sl_p c H) (sl_n c H) (sl_base c H) (sl_mult c H) (bk_rand B) (bk_fuel B)
    (be2z prikey ** G) m (kG_on _) (kG_ne _ Hd) R2 ct HE) as (Hm & k & Hc).
  pose proof (decrypt_round c Hv (sl_b c H) (sl_N c H) (sl_p c H) (sl_base c H) (sl_mult c H) (sl_add c H) (sl_on c H)
    prikey m ct k Hk Lk Hd Hc R3) as D. cbv beta in D.
  unfold Decryption. change (SM2 =? ECC_CURVE_SM2_STANDARD) with true. cbv iota. rewrite D. reflexivity.
Qed.

Lemma decryption_eq prikey ct : legal_key prikey -> ct <> [] ->
  Decryption prikey ct SM2 = match fst (sm2_std_decrypt (be2z prikey) ct) with
    | Panic => Panic
    | Ret (_, Some ErrPrivateKeyIllegal) => Ret (None, ECC_PRIKEY_ILLEGAL)
    | Ret (_, Some ErrMessageIllegal) => Ret (None, MESSAGE_ILLEGAL)
    | Ret (_, Some ErrUnknownCurve) => Ret (None, ECC_WRONG_TYPE)
    | Ret (m, _) => Ret (Some m, SUCCESS)
    end.
Proof using H.
  intros (Hk & HL & Hd) Hc. unfold Decryption. change (SM2 =? ECC_CURVE_SM2_STANDARD) with true. cbv iota.
  unfold sm2_decrypt. rewrite HL, N_eq. cbn [Nat.eqb negb].
  destruct ct as [|b ct]; [contradiction|]. cbn [length Nat.eqb].
  replace (n <=? be2z prikey) with false by (symmetry; apply Z.leb_gt; clear - Hd; lia).
  run Q. reflexivity.
Qed.
Theorem sm2_decrypt_always prikey ct : legal_key prikey -> (65 <= length ct)%nat ->
  exists m, Decryption prikey ct SM2 = Ret (Some m, SUCCESS).
Proof using H.
  intros Hk Hl. assert (Hc : ct <> []) by (intros ->; cbn in Hl; lia).
  rewrite decryption_eq by assumption. destruct ct as [|b ct]; [contradiction|].
  unfold sm2_std_decrypt. cbn [length] in Hl.
  replace (length ct <? 64)%nat with false by (symmetry; apply Nat.ltb_ge; clear - Hl; lia).
  run P. cbn [fst snd].
  destruct (length ct <? 96)%nat; [eexists; reflexivity|].
  destruct (sm2_kdf _ _ _) as [ck ok]. destruct (negb ok); [eexists; reflexivity|].
  destruct (list_eq_dec _ _ _); eexists; reflexivity.
Qed.
Theorem sm2_decrypt_short_panics prikey ct : legal_key prikey -> (0 < length ct < 65)%nat ->
  Decryption prikey ct SM2 = Panic.
Proof using H.
  intros Hk Hl. assert (Hc : ct <> []) by (intros ->; cbn in Hl; lia).
  rewrite decryption_eq by assumption. destruct ct as [|b ct]; [contradiction|].
  unfold sm2_std_decrypt. cbn [length] in Hl.
  replace (length ct <? 64)%nat with true by (symmetry; apply Nat.ltb_lt; clear - Hl; lia). reflexivity.
Qed.
Theorem sm2_decrypt_no_panic prikey ct : bytes_ok prikey -> (length ct = 0 \/ 65 <= length ct)%nat ->
  Decryption prikey ct SM2 <> Panic.
Proof using H.
  intros Hk Hl. unfold Decryption. change (SM2 =? ECC_CURVE_SM2_STANDARD) with true. cbv iota.
  enough (X : fst (sm2_decrypt prikey ct) <> Panic).
  { destruct (fst _) as [[m [e|]]|]; [destruct e; discriminate|discriminate|contradiction]. }
  unfold sm2_decrypt. destruct (negb _); [discriminate|].
  destruct (length ct =? 0)%nat eqn:E0; [discriminate|]. apply Nat.eqb_neq in E0.
  destruct Hl as [Hl|Hl]; [contradiction|]. cbv zeta.
  destruct (sm2_N <=? be2z prikey); [discriminate|].
  run Q.
  destruct ct as [|b ct]; [contradiction|]. unfold sm2_std_decrypt. cbn [length] in Hl.
  replace (length ct <? 64)%nat with false by (symmetry; apply Nat.ltb_ge; clear - Hl; lia).
  run P. cbn [fst snd].
  destruct (length ct <? 96)%nat; [discriminate|].
  destruct (sm2_kdf _ _ _) as [ck ok]. destruct (negb ok); [discriminate|].
  destruct (list_eq_dec _ _ _); discriminate.
Qed.

(** ** Key agreement *)
Theorem sm2_ka BI BR idI idR dI dR pubI pubR ri RI given keylen key RR si so :
  bytes_ok idI -> bytes_ok idR -> 0 < Z.of_nat (length idI) < 8192 -> 0 < Z.of_nat (length idR) < 8192 ->
  bytes_ok dI -> bytes_ok dR -> bytes_ok (rand32 BI) -> bytes_ok (rand32 BR) ->
  match given with Some g => bytes_ok g | None => True end ->
  GenPubkey BI dI SM2 = Ret (Some pubI, SUCCESS) ->
  GenPubkey BR dR SM2 = Ret (Some pubR, SUCCESS) ->
  KeyAgreement_initiator_step1 BI SM2 = (ri, RI) ->
  KeyAgreement_responder_ElGamal_step1 BR idI idR dR pubR pubI RI keylen given SM2 = Ret (key, RR, si, so, SUCCESS) ->
  snd (sm2_ScalarBaseMult dI) = true -> snd (sm2_ScalarBaseMult dR) = true ->
  snd (sm2_ka_initiator_step1 (rand32 BI)) = true ->
  snd (sm2_ka_responder_step1 (rand32 BR) idI idR dR pubR pubI RI given keylen) = true ->
  snd (sm2_ka_initiator_step2 idI idR dI pubI pubR ri RI RR so keylen) = true ->
  be2z ri <> 0 -> ka_regular c (be2z dI) (be2z ri) ->
  (forall rr, 0 < rr < n -> RR = enc (rr ** G) -> ka_regular c (be2z dR) rr) ->
  KeyAgreement_initiator_step2 idI idR dI pubI pubR ri RI RR so keylen SM2 = Ret (key, si, SUCCESS) /\
  KeyAgreement_responder_step2 si si SM2 = SUCCESS.
Proof using H.
  intros HI HR LI LR HdI HdR HrI HrR Hg GI GR S1 S2 R1 R2 R3 R4 R5 Hr0 Reg1 Reg2.
  pose proof (genpub_legal _ _ _ HdI GI) as KI. pose proof (genpub_legal _ _ _ HdR GR) as KR.
  rewrite (genpub_good BI dI KI R1) in GI. assert (pubI = enc (be2z dI ** G)) by congruence. subst pubI.
  rewrite (genpub_good BR dR KR R2) in GR. assert (pubR = enc (be2z dR ** G)) by congruence. subst pubR. clear GI GR R1 R2.
  rewrite step1_eq in S1.
  destruct (step1_good c Hv (sl_N c H) (sl_p c H) (sl_n c H) (sl_base c H) (sl_mult c H) (sl_on c H) (rand32 BI) HrI R3) as (Lr & Hri & Bri & ERI).
  rewrite S1 in Lr, Hri, Bri, ERI. cbn [fst snd] in Lr, Hri, Bri, ERI. specialize (ERI Hr0). subst RI. clear S1 R3.
  assert (HrIne : be2z ri ** G <> O) by (apply kG_ne; clear - Bri Hr0; lia).
  rewrite responder_eq in S2.
  pose proof (responder_good c Hv (sl_N c H) (sl_p c H) (sl_n c H) (sl_par c H) (sl_base c H) (sl_mult c H) (sl_add c H) (sl_on c H)
    (rand32 BR) idI idR dR (be2z dI) (be2z ri) given keylen HI HR LI LR HdR HrR Hg HrIne Reg1 R4) as RG. cbv zeta beta in RG.
  assert (S2' : fst (sm2_ka_responder_step1 (rand32 BR) idI idR dR (enc (be2z dR ** G)) (enc (be2z dI ** G)) (enc (be2z ri ** G)) given keylen)
     = Ret (key, RR, si, so, true))
    by (apply responder_ok; assumption).
  destruct (RG _ _ _ _ S2') as (rr & Brr & _ & ERR & Ekey & Esi & Eso). clear S2 S2' RG R4.
  specialize (Reg2 rr Brr ERR). subst RR.
  pose proof (initiator_good c Hv (sl_N c H) (sl_p c H) (sl_n c H) (sl_par c H) (sl_base c H) (sl_mult c H) (sl_add c H) (sl_on c H)
    idI idR dI ri (be2z dR) rr keylen so HI HR LI LR (proj1 (proj2 KI)) Lr (kG_ne _ Brr) Reg2 Eso R5) as IG.
  cbv beta zeta in IG. rewrite <- Ekey, <- Esi in IG. split.
  - rewrite initiator_eq, IG. reflexivity.
  - apply step2_ok. rewrite Esi. unfold sm2_ka_check. apply sm3_of_length.
Qed.

Theorem sm2_ka_keylen B idI idR dR pubR pubI RI given keylen key RR si so : 0 <= keylen < 2 ^ 16 ->
  KeyAgreement_responder_ElGamal_step1 B idI idR dR pubR pubI RI keylen given SM2 = Ret (key, RR, si, so, SUCCESS) ->
  Z.of_nat (length key) = keylen mod 8192.
Proof using.
  intros Hl. rewrite responder_eq.
  intros E.
  assert (E' : fst (sm2_ka_responder_step1 (rand32 B) idI idR dR pubR pubI RI given keylen) = Ret (key, RR, si, so, true))
    by (apply responder_ok; assumption).
  clear E. unfold sm2_ka_responder_step1 in E'.
  destruct (negb _); [discriminate|]. run_in E' on.
  destruct (negb on); [discriminate|]. cbv zeta in E'.
  destruct (match given with None => _ | Some g => _ end) as [tp|]; [|discriminate].
  destruct (_ || _); [discriminate|]. run_in E' R.
  destruct (negb _); [discriminate|]. destruct (length pubI <? 32)%nat; [discriminate|].
  run_in E' P.
  destruct (ka_ids _ _ _ _) as [[zi zr]|]; [|discriminate]. cbn [ret fst] in E'.
  assert (Ek : key = sm2_ka_kdf (fst P) (snd P) zi zr ((keylen * 8) mod 2 ^ 16)) by congruence.
  rewrite Ek. apply ka_kdf_length. exact Hl.
Qed.
Theorem sm2_ka_keylen_i idI idR dI pubI pubR ri RI RR sin keylen key sout : 0 <= keylen < 2 ^ 16 ->
  KeyAgreement_initiator_step2 idI idR dI pubI pubR ri RI RR sin keylen SM2 = Ret (key, sout, SUCCESS) ->
  Z.of_nat (length key) = keylen mod 8192.
Proof using.
  intros Hl. rewrite initiator_eq. intros E.
  assert (E' : fst (sm2_ka_initiator_step2 idI idR dI pubI pubR ri RI RR sin keylen) = Ret (key, sout, true))
    by (apply initiator_ok; assumption).
  clear E. unfold sm2_ka_initiator_step2 in E'.
  destruct (negb _); [discriminate|]. run_in E' on.
  destruct (negb on); [discriminate|]. destruct (negb _); [discriminate|]. destruct (negb _); [discriminate|].
  destruct (negb _); [discriminate|]. destruct (length pubR <? 32)%nat; [discriminate|].
  run_in E' P.
  destruct (ka_ids _ _ _ _) as [[zi zr]|]; [|discriminate]. cbv zeta in E'.
  destruct (list_eq_dec _ _ _); [|discriminate]. cbn [ret fst] in E'.
  assert (Ek : key = sm2_ka_kdf (fst P) (snd P) zi zr ((keylen * 8) mod 2 ^ 16)) by congruence.
  rewrite Ek. apply ka_kdf_length. exact Hl.
Qed.

(** ** Points *)
Lemma sm2_decompress_ok P : w_on c P -> P <> O -> sm2_decompress (compressed_bytes c P) = Some (4 :: enc P).
Proof using H.
  intros HP HN. unfold sm2_decompress. rewrite (sl_P c H).
  exact (decompress_ok (ref_curve c) c (sl_imp c H) _ (sl_dec c H) P HP HN).
Qed.
Lemma sm2_pd B b : length b = 33%nat -> PointDecompress B b SM2 = Ret (sm2_decompress b).
Proof using. intros E. unfold PointDecompress. rewrite E. reflexivity. Qed.
Lemma comp_length P : length (compressed_bytes c P) = 33%nat.
Proof using. unfold compressed_bytes. cbn [length]. rewrite z2be_length. reflexivity. Qed.
Theorem sm2_roundtrip B P : w_on c P -> P <> O ->
  exists cb, PointCompress (Some (enc P)) SM2 = Some cb /\
             PointCompress (Some (4 :: enc P)) SM2 = Some cb /\
             PointDecompress B cb SM2 = Ret (Some (4 :: enc P)).
Proof using H.
  intros HP HN. exists (compressed_bytes c P).
  destruct (compress_ok (ref_curve c) c (sl_imp c H) P SM2) as [C1 C2]; [auto|].
  split; [exact C1|]. split; [exact C2|].
  rewrite sm2_pd by apply comp_length. rewrite sm2_decompress_ok by assumption. reflexivity.
Qed.
Lemma sm2_arg B P b : w_on c P -> P <> O -> encodes c P b -> point_arg B b SM2 = Ret (Some (enc P)).
Proof using H.
  intros HP HN He. apply (point_arg_ok c); auto.
  rewrite sm2_pd by apply comp_length. rewrite sm2_decompress_ok by assumption. reflexivity.
Qed.

Lemma point_add_eq B P Q bp bq : w_on c P -> w_on c Q -> P <> O -> Q <> O -> encodes c P bp -> encodes c Q bq ->
  Point_add B bp bq SM2 =
    let r := fst (sm2_Add (px c P) (py c P) (px c Q) (py c Q)) in
    if fst r =? 0 then Ret (None, FAILURE) else Ret (Some (marshal_xy (fst r) (snd r)), SUCCESS).
Proof using H.
  intros HP HQ NP NQ EP EQ. unfold Point_add. change (SM2 =? ECC_CURVE_ED25519) with false. cbv iota.
  rewrite (sm2_arg B P bp), (sm2_arg B Q bq) by assumption.
  change (inf_ret (point_add sm2_curve (enc P) (enc Q)) =
    let r := fst (sm2_Add (px c P) (py c P) (px c Q) (py c Q)) in
    if fst r =? 0 then Ret (None, FAILURE) else Ret (Some (marshal_xy (fst r) (snd r)), SUCCESS)).
  unfold point_add. rewrite !pt_bytes_len. cbn [Nat.ltb Nat.leb orb].
  rewrite !(pt_bytes_x c Hv (sl_p c H)), !(pt_bytes_y c Hv (sl_p c H)).
  change (e_Add sm2_curve) with (fun x1 y1 x2 y2 => fst (sm2_Add x1 y1 x2 y2)). cbv beta zeta.
  destruct (fst (sm2_Add _ _ _ _)) as [x y]. cbn [fst snd]. rewrite andb_diag. destruct (x =? 0); reflexivity.
Qed.
Theorem sm2_point_add B P Q bp bq : w_on c P -> w_on c Q -> P <> O -> Q <> O -> encodes c P bp -> encodes c Q bq ->
  P <> Q -> snd (sm2_Add (px c P) (py c P) (px c Q) (py c Q)) = true ->
  let S := w_add c P Q in
  (px c S = 0 -> Point_add B bp bq SM2 = Ret (None, FAILURE)) /\
  (px c S <> 0 -> Point_add B bp bq SM2 = Ret (Some (enc S), SUCCESS)).
Proof using H.
  intros HP HQ NP NQ EP EQ Hne R S. rewrite (point_add_eq B P Q) by assumption. cbv zeta.
  destruct (sl_add c H P Q HP HQ R) as [E _]. rewrite (E Hne). cbn [fst snd]. fold S.
  rewrite (marshal_pt c Hv (sl_p c H)).
  split; intros X; [apply Z.eqb_eq in X|apply Z.eqb_neq in X]; rewrite X; reflexivity.
Qed.
Theorem sm2_point_double_fails B P bp bq : w_on c P -> P <> O -> encodes c P bp -> encodes c P bq ->
  snd (sm2_Add (px c P) (py c P) (px c P) (py c P)) = true ->
  Point_add B bp bq SM2 = Ret (None, FAILURE).
Proof using H.
  intros HP NP EP EQ R. rewrite (point_add_eq B P P) by assumption. cbv zeta.
  destruct (sl_add c H P P HP HP R) as [_ E]. rewrite (E eq_refl). reflexivity.
Qed.

Lemma point_mul_eq B P bp k : w_on c P -> P <> O -> encodes c P bp -> length k = 32%nat ->
  Point_mul B bp k SM2 =
    let r := fst (sm2_ScalarMult (px c P) (py c P) k) in
    if (fst r =? 0) && (snd r =? 0) then Ret (None, FAILURE) else Ret (Some (marshal_xy (fst r) (snd r)), SUCCESS).
Proof using H.
  intros HP NP EP Lk. unfold Point_mul. change (SM2 =? ECC_CURVE_ED25519) with false. cbv iota.
  rewrite (sm2_arg B P bp), Lk by assumption.
  change (inf_ret (point_mul sm2_curve (enc P) k) =
    let r := fst (sm2_ScalarMult (px c P) (py c P) k) in
    if (fst r =? 0) && (snd r =? 0) then Ret (None, FAILURE) else Ret (Some (marshal_xy (fst r) (snd r)), SUCCESS)).
  unfold point_mul. rewrite !pt_bytes_len. cbn [Nat.ltb Nat.leb orb].
  rewrite !(pt_bytes_x c Hv (sl_p c H)), !(pt_bytes_y c Hv (sl_p c H)).
  change (e_ScalarMult sm2_curve) with (fun x y k => fst (sm2_ScalarMult x y k)). cbv beta zeta.
  destruct (fst (sm2_ScalarMult _ _ _)) as [x y]. cbn [fst snd]. destruct ((x =? 0) && (y =? 0)); reflexivity.
Qed.
Theorem sm2_point_mul B P bp k : w_on c P -> P <> O -> encodes c P bp -> bytes_ok k -> length k = 32%nat ->
  snd (sm2_ScalarMult (px c P) (py c P) k) = true ->
  let S := be2z k ** P in
  (S = O -> Point_mul B bp k SM2 = Ret (None, FAILURE)) /\
  (S <> O -> Point_mul B bp k SM2 = Ret (Some (enc S), SUCCESS)).
Proof using H.
  intros HP NP EP Hk Lk R S. rewrite (point_mul_eq B P) by assumption. cbv zeta.
  rewrite (sl_mult c H P k HP NP Hk R). cbn [fst snd]. fold S.
  rewrite (marshal_pt c Hv (sl_p c H)).
  assert (HS : w_on c S) by (apply mul_on; [exact Hv|exact HP]).
  pose proof (inf_test c (sl_b c H) S HS) as I.
  destruct ((px c S =? 0) && (py c S =? 0)).
  - split; [reflexivity|]. intros X. exfalso. apply X, I. reflexivity.
  - split; [|reflexivity]. intros X. apply I in X. discriminate.
Qed.
End Api.
