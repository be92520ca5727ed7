(** Properties C18 and C19: what the dispatching functions say about curve
    orders and about identifiers they do not know. *)
Require Import ZArith List Lia Znumtheory Bool.
Require Import Verif.Base Verif.EC Verif.Curves Verif.AllOrder Verif.ModelK1 Verif.ModelECDSA Verif.ModelApi Verif.ProofECDSA Verif.PropsK1.
Import ListNotations.
Open Scope Z_scope.

(** The base point of [c] has prime order, and that order is what
    GetCurveOrder reports, in 32 big-endian bytes. *)
Definition reports_order (typ : Z) (c : wcurve) : Prop :=
  exists b, GetCurveOrder typ = Some b /\ length b = 32%nat /\ prime (be2z b) /\
    w_on c (w_G c) /\ w_G c <> pinf c /\
    (forall k, w_mul c k (w_G c) = pinf c <-> (be2z b | k)) /\
    (forall P, w_on c P -> w_mul c (be2z b) P = pinf c).

Lemma reports typ c : w_valid c -> GetCurveOrder typ = Some (z2be 32 (w_n c)) -> w_n c < 2 ^ 256 ->
  (forall P, w_on c P -> w_mul c (w_n c) P = pinf c) -> reports_order typ c.
Proof.
  intros Hv H Hb Hall. exists (z2be 32 (w_n c)).
  pose proof (wv_nprime c Hv) as Hn. assert (Hn1 := prime_ge_2 _ Hn).
  split; [exact H|]. split; [apply z2be_length|].
  assert (E : be2z (z2be 32 (w_n c)) = w_n c)
    by (rewrite be2z_z2be, Z.mod_small; [reflexivity|change (256 ^ Z.of_nat 32) with (2 ^ 256); clear - Hn1 Hb; lia]).
  rewrite E. split; [exact Hn|]. split; [apply (wv_Gon c Hv)|]. split; [discriminate|].
  split; [|exact Hall]. intros k. rewrite mulG_inf by exact Hv. split; intros D.
  - apply Z.mod_divide; [clear - Hn1; lia|exact D].
  - apply Z.mod_divide; [clear - Hn1; lia|exact D].
Qed.

(** C18, the Weierstrass curves; Ed25519 is in PropsEd.v. *)
Theorem C18_curve_orders_partial :
  reports_order ECC_CURVE_SECP256K1 secp256k1 /\ reports_order ECC_CURVE_SECP256R1 p256 /\
  reports_order ECC_CURVE_SM2_STANDARD sm2p256 /\ reports_order ECC_CURVE_PASTA pallas.
Proof.
  split; [|split; [|split]]; apply reports;
    try reflexivity;
    auto using secp256k1_valid, p256_valid, sm2p256_valid, pallas_valid, secp256k1_order, p256_order, sm2p256_order, pallas_order.
Qed.
Print Assumptions C18_curve_orders_partial.

(** C19.  The identifiers the package documents. *)
Definition known_ids : list Z :=
  [ECC_CURVE_SECP256K1; ECC_CURVE_SECP256R1; ECC_CURVE_SM2_STANDARD; ECC_CURVE_ED25519_NORMAL;
   ECC_CURVE_ED25519; ECC_CURVE_X25519; ECC_CURVE_CURVE25519_SHA256; ECC_CURVE_BLS_NUL;
   ECC_CURVE_BLS_AUG; ECC_CURVE_PASTA].

Ltac unknown H :=
  repeat match goal with |- context [?t =? ?k] =>
    replace (t =? k) with false by (symmetry; apply Z.eqb_neq; intros ->; apply H; unfold known_ids; simpl; tauto) end;
  cbn [orb andb negb].

Theorem C19_unknown_identifiers_partial : forall typ, ~ In typ known_ids -> forall B,
  (forall k, GenPubkey B k typ = Ret (None, ECC_WRONG_TYPE)) /\
  (forall k id m, Signature B k id m typ = Some (Ret (None, 0, ECC_WRONG_TYPE))) /\
  (forall p id m s, Verify B p id m s typ = Ret ECC_WRONG_TYPE) /\
  (forall p m, Encryption B p m typ = Some (Ret (None, ECC_WRONG_TYPE))) /\
  (forall p m, Decryption p m typ = Ret (None, ECC_WRONG_TYPE)) /\
  (forall a b c d e f g h i n, KeyAgreement_initiator_step2 a b c d e f g h i n typ = Ret ([], [], ECC_WRONG_TYPE)) /\
  (forall a b c d e f n, KeyAgreement_responder_step1 B a b c d e f n typ = Ret ([], [], [], [], ECC_WRONG_TYPE)) /\
  (forall a b c d e f n r, KeyAgreement_responder_ElGamal_step1 B a b c d e f n r typ = Ret ([], [], [], [], ECC_WRONG_TYPE)) /\
  (forall s1 s2, KeyAgreement_responder_step2 s1 s2 typ = ECC_WRONG_TYPE) /\
  (forall s l, AggregateSignatures B typ (s :: l) = Ret (None, ECC_WRONG_TYPE)) /\
  (forall s m, RecoverPubkey B s m typ = Ret (None, ECC_WRONG_TYPE)) /\
  (forall p, PointCompress p typ = None) /\
  (forall p, PointDecompress B p typ = Ret None) /\
  (forall s, Point_mulBaseG B s typ = Ret None) /\
  (forall p s, Point_mulBaseG_add B p s typ = Ret (None, false)) /\
  (forall p q, length p <> 33%nat -> length q <> 33%nat -> Point_add B p q typ = Ret (None, FAILURE)) /\
  (forall p s, length p <> 33%nat -> Point_mul B p s typ = Ret (None, FAILURE)) /\
  GetCurveOrder typ = None.
Proof.
  intros typ H B.
  split; [intros; unfold GenPubkey; unknown H; reflexivity|].
  split; [intros; unfold Signature; unknown H; reflexivity|].
  split; [intros; unfold Verify; unknown H; reflexivity|].
  split; [intros; unfold Encryption; unknown H; reflexivity|].
  split; [intros; unfold Decryption; unknown H; reflexivity|].
  split; [intros; unfold KeyAgreement_initiator_step2; unknown H; reflexivity|].
  split; [intros; unfold KeyAgreement_responder_step1, KeyAgreement_responder_any; unknown H; reflexivity|].
  split; [intros; unfold KeyAgreement_responder_ElGamal_step1, KeyAgreement_responder_any; unknown H; reflexivity|].
  split; [intros; unfold KeyAgreement_responder_step2; unknown H; reflexivity|].
  split; [intros; unfold AggregateSignatures; unknown H; reflexivity|].
  split; [intros; unfold RecoverPubkey; unknown H; reflexivity|].
  split; [intros; unfold PointCompress; unknown H; reflexivity|].
  split; [intros; unfold PointDecompress; unknown H; destruct (length p =? 33)%nat; reflexivity|].
  split; [intros; unfold Point_mulBaseG; unknown H; destruct (length s =? 32)%nat; reflexivity|].
  split; [intros; unfold Point_mulBaseG_add; unknown H; destruct (length s =? 32)%nat; reflexivity|].
  assert (A : forall p, length p <> 33%nat -> point_arg B p typ = Ret None \/ exists q, point_arg B p typ = Ret (Some q)).
  { intros p Hp. unfold point_arg. rewrite (proj2 (Nat.eqb_neq _ _) Hp).
    destruct (length p =? 65)%nat; [right; eauto|]. destruct (length p =? 64)%nat; [right|left]; cbn; eauto. }
  split.
  { intros p q Hp Hq. unfold Point_add. unknown H.
    destruct (A p Hp) as [->|[p' ->]]; [reflexivity|]. destruct (A q Hq) as [->|[q' ->]]; reflexivity. }
  split.
  { intros p s Hp. unfold Point_mul. unknown H.
    destruct (A p Hp) as [->|[p' ->]]; [reflexivity|]. destruct (length s =? 32)%nat; reflexivity. }
  unfold GetCurveOrder. unknown H. reflexivity.
Qed.
Print Assumptions C19_unknown_identifiers_partial.
Example C19_example : ~ In 0 known_ids /\ ~ In 0xECC0000A known_ids.
Proof. unfold known_ids. simpl. split; intros H; repeat destruct H as [H|H]; try discriminate; exact H. Qed.

(** The full C19 is false: Point_add and Point_mul crash on a 33-byte point and
    an unknown identifier, because they slice the nil that PointDecompress
    returns. *)
Theorem C19_unknown_identifiers_refuted : forall typ, ~ In typ known_ids -> forall B p, length p = 33%nat ->
  (forall q, Point_add B p q typ = Panic) /\ (forall s, Point_mul B p s typ = Panic).
Proof.
  intros typ H B p Hp.
  assert (A : point_arg B p typ = Panic).
  { unfold point_arg, PointDecompress. rewrite Hp. unknown H. reflexivity. }
  split; intros; unfold Point_add, Point_mul; unknown H; rewrite A; reflexivity.
Qed.
