(** Property C103: the second half of an ECDSA signature is not determined by
    key, hash and first half, but has at most four values. *)
From Coq Require Import ZArith List Lia.
From Verif Require Import Base Fp Weier Group EC Curves AllOrder EcFour EcAlter SpecECDSA ModelK1 ModelECDSA ModelApi
  ProofECDSA ProofECDSA2 ProofECDSA3 ProofK1Api ProofK1Wit PropsK1 PropsR1.
Import ListNotations.
Local Open Scope Z_scope.

(** The signature with n - s in place of s. *)
Definition other_s (n : Z) (sig : bytes) : bytes := firstn 32 sig ++ z2be 32 (n - be2z (skipn 32 sig)).

Section Gen.
Variable c : wcurve.
Hypothesis Hv : w_valid c.
Hypothesis Hord : forall P, w_on c P -> w_mul c (w_n c) P = pinf c.
Hypothesis Hn : 2 < w_n c < 256 ^ 32.
Hypothesis Hodd : w_n c mod 2 = 1.
Hypothesis Hp : w_p c < 2 * w_n c.
Variable Q : pt c.
Hypothesis HQ : w_on c Q.
Variable hash : bytes.
Variable ver : bytes -> outcome Z.
Hypothesis Hver : forall sig, ver sig = Ret SUCCESS <->
  length sig = 64%nat /\ length hash = 32%nat /\ ecdsa_valid c Q (be2z hash) (be2z (firstn 32 sig)) (be2z (skipn 32 sig)).
Lemma other_accepted sig : ver sig = Ret SUCCESS -> other_s (w_n c) sig <> sig /\ ver (other_s (w_n c) sig) = Ret SUCCESS.
Proof using Hv Hord Hn Hodd HQ Hver.
  intros V. apply Hver in V. destruct V as (L & L' & V).
  assert (F : length (firstn 32 sig) = 32%nat) by (rewrite firstn_length, L; reflexivity).
  assert (F1 : firstn 32 (other_s (w_n c) sig) = firstn 32 sig) by (unfold other_s; rewrite firstn_app, F, Nat.sub_diag, firstn_O, app_nil_r; apply firstn_all2; rewrite F; apply le_n).
  assert (F2 : skipn 32 (other_s (w_n c) sig) = z2be 32 (w_n c - be2z (skipn 32 sig))).
  { unfold other_s. rewrite skipn_app, F, Nat.sub_diag, skipn_O, skipn_all2 by (rewrite F; apply le_n). reflexivity. }
  pose proof V as (_ & Hs & _).
  assert (Eb : be2z (z2be 32 (w_n c - be2z (skipn 32 sig))) = w_n c - be2z (skipn 32 sig)).
  { rewrite be2z_z2be. apply Z.mod_small. change (256 ^ Z.of_nat 32) with (256 ^ 32). lia. }
  split.
  - intros E. rewrite E in F2. rewrite <- F2 in Eb. generalize dependent (be2z (skipn 32 sig)). intros s _ _ Eb.
    pose proof (Z.div_mod (w_n c) 2 ltac:(lia)). lia.
  - apply Hver. rewrite F1, F2, Eb. split; [unfold other_s; rewrite app_length, F, z2be_length; reflexivity|]. split; [exact L'|].
    apply (negated c Hv Hord (proj1 Hn)); assumption.
Qed.
Lemma four_sigs r (sigs : list bytes) : NoDup sigs ->
  (forall sig, In sig sigs -> bytes_ok sig /\ firstn 32 sig = r /\ ver sig = Ret SUCCESS) -> (length sigs <= 4)%nat.
Proof using Hv Hord Hn Hp HQ Hver.
  intros N H. enough (M : (length (map (fun sig => be2z (skipn 32 sig)) sigs) <= 4)%nat) by (rewrite map_length in M; exact M).
  apply (four_s c Hv Hord (proj1 Hn) Hp Q (be2z hash) (be2z r)); [exact HQ| |].
  - induction N as [|a l Na N IH]; [constructor|]. cbn [map]. constructor; [|apply IH; intros x Hx; apply H; right; exact Hx].
    intros I. apply in_map_iff in I. destruct I as (b & E & Hb). apply Na.
    destruct (H a (or_introl eq_refl)) as (Oa & Fa & Va). destruct (H b (or_intror Hb)) as (Ob & Fb & Vb).
    apply Hver in Va. apply Hver in Vb. destruct Va as (La & _). destruct Vb as (Lb & _).
    assert (S : skipn 32 a = skipn 32 b).
    { apply (f_equal (z2be 32)) in E.
      assert (Z : forall x, bytes_ok x -> length x = 64%nat -> z2be 32 (be2z (skipn 32 x)) = skipn 32 x).
      { intros x Ox Lx. replace 32%nat with (length (skipn 32 x)) at 1 by (rewrite skipn_length, Lx; reflexivity). apply z2be_be2z.
        rewrite <- (firstn_skipn 32 x) in Ox. apply Forall_app in Ox. apply Ox. }
      rewrite !Z in E by assumption. symmetry. exact E. }
    rewrite <- (firstn_skipn 32 a), Fa, S, <- Fb, firstn_skipn. exact Hb.
  - intros s I. apply in_map_iff in I. destruct I as (sig & <- & I). destruct (H sig I) as (_ & <- & V). apply Hver in V. apply V.
Qed.
End Gen.

(** Not determined: n - s is accepted along with s. *)
Theorem C103_k1_altered_refuted : forall B pub ID hash sig, length pub = 64%nat -> w_on secp256k1 (point_of_bytes secp256k1 pub) ->
  Verify B pub ID hash sig ECC_CURVE_SECP256K1 = Ret SUCCESS ->
  other_s (w_n secp256k1) sig <> sig /\ Verify B pub ID hash (other_s (w_n secp256k1) sig) ECC_CURVE_SECP256K1 = Ret SUCCESS.
Proof.
  intros B pub ID hash sig L On.
  apply (other_accepted secp256k1 secp256k1_valid secp256k1_order ltac:(split; vm_compute; reflexivity) ltac:(vm_compute; reflexivity)
    _ On hash (fun sg => Verify B pub ID hash sg ECC_CURVE_SECP256K1)).
  intros sg. exact (C03_k1_verify_is_ecdsa B pub ID hash sg L On).
Qed.
Print Assumptions C103_k1_altered_refuted.
Theorem C103_r1_altered_refuted : forall B, implements (bk_r1 B) p256 -> forall Q ID hash sig, w_on p256 Q ->
  Verify B (point_bytes p256 Q) ID hash sig ECC_CURVE_SECP256R1 = Ret SUCCESS ->
  other_s (w_n p256) sig <> sig /\ Verify B (point_bytes p256 Q) ID hash (other_s (w_n p256) sig) ECC_CURVE_SECP256R1 = Ret SUCCESS.
Proof.
  intros B HB Q ID hash sig On.
  apply (other_accepted p256 p256_valid p256_order ltac:(split; vm_compute; reflexivity) ltac:(vm_compute; reflexivity)
    _ On hash (fun sg => Verify B (point_bytes p256 Q) ID hash sg ECC_CURVE_SECP256R1)).
  intros sg. exact (C57_r1_verify_is_ecdsa B HB Q ID hash sg On).
Qed.
Print Assumptions C103_r1_altered_refuted.
(** What remains: at most four signatures share key, hash and first half. *)
Theorem C103_k1_partial : forall B pub ID hash r (sigs : list bytes), length pub = 64%nat -> w_on secp256k1 (point_of_bytes secp256k1 pub) ->
  NoDup sigs ->
  (forall sig, In sig sigs -> bytes_ok sig /\ firstn 32 sig = r /\ Verify B pub ID hash sig ECC_CURVE_SECP256K1 = Ret SUCCESS) ->
  (length sigs <= 4)%nat.
Proof.
  intros B pub ID hash r sigs L On.
  apply (four_sigs secp256k1 secp256k1_valid secp256k1_order ltac:(split; vm_compute; reflexivity) ltac:(vm_compute; reflexivity)
    _ On hash (fun sg => Verify B pub ID hash sg ECC_CURVE_SECP256K1)).
  intros sg. exact (C03_k1_verify_is_ecdsa B pub ID hash sg L On).
Qed.
Print Assumptions C103_k1_partial.
Theorem C103_r1_partial : forall B, implements (bk_r1 B) p256 -> forall Q ID hash r (sigs : list bytes), w_on p256 Q ->
  NoDup sigs ->
  (forall sig, In sig sigs -> bytes_ok sig /\ firstn 32 sig = r /\ Verify B (point_bytes p256 Q) ID hash sig ECC_CURVE_SECP256R1 = Ret SUCCESS) ->
  (length sigs <= 4)%nat.
Proof.
  intros B HB Q ID hash r sigs On.
  apply (four_sigs p256 p256_valid p256_order ltac:(split; vm_compute; reflexivity) ltac:(vm_compute; reflexivity)
    _ On hash (fun sg => Verify B (point_bytes p256 Q) ID hash sg ECC_CURVE_SECP256R1)).
  intros sg. exact (C57_r1_verify_is_ecdsa B HB Q ID hash sg On).
Qed.
Print Assumptions C103_r1_partial.
(** The demonstration signature and its altered form: two signatures of one key, hash and r. *)
Example C103_met : let pub := point_bytes secp256k1 (w_G secp256k1) in
  length pub = 64%nat /\ w_on secp256k1 (point_of_bytes secp256k1 pub) /\
  Verify demo_B pub None (hash_of 5) (demo_sig 5) ECC_CURVE_SECP256K1 = Ret SUCCESS /\
  Verify demo_B pub None (hash_of 5) (other_s (w_n secp256k1) (demo_sig 5)) ECC_CURVE_SECP256K1 = Ret SUCCESS /\
  implements (bk_r1 demo_R1) p256.
Proof.
  intros pub. destruct C03_example as (L & On & _).
  assert (V : Verify demo_B pub None (hash_of 5) (demo_sig 5) ECC_CURVE_SECP256K1 = Ret SUCCESS) by apply C02_example.
  split; [exact L|]. split; [exact On|]. split; [exact V|]. split; [exact (proj2 (C103_k1_altered_refuted _ _ _ _ _ L On V)) | exact R1_contract_satisfiable].
Qed.
