(** Properties of the CURVE25519_SHA256 code (curve25519_sha256.go). *)
Require Import ZArith List Lia Bool.
Require Import Verif.Base Verif.Words Verif.Fp Verif.Group Verif.SpecEd Verif.EdCurve Verif.ProofEdF Verif.ProofEdG Verif.ProofEdX Verif.ProofEdS.
Require Import Verif.ModelECDSA Verif.ModelCsha Verif.ProofCshaF Verif.ProofCshaG.
Import ListNotations.
Open Scope Z_scope.

Lemma cs_clamp_shape a m z : length m = 30%nat -> cs_clamp (a :: m ++ [z]) = Z.land a 248 :: m ++ [Z.lor (Z.land z 127) 64].
Proof.
  intros H. unfold cs_clamp. cbv zeta. change 31%nat with (S 30). rewrite <- H.
  rewrite !nth_S, !upd_S, !ProofEdS.nth_app_last, !upd_app_last, ?nth_S, ?ProofEdS.nth_app_last. reflexivity.
Qed.
Lemma cs_clamp_ok h : length h = 32%nat -> bytes_ok h -> cs_clamp h = z2le 32 (ed_clamp h) /\ ed_clamp h < 2 ^ 255.
Proof.
  intros HL HB. destruct (clamp_ok 127 h ltac:(now right) HL HB) as (A & B & C & D). split; [|exact D].
  assert (E : cs_clamp h = ModelEdDSA.clamp 127 h).
  { destruct (ends32 h HL) as (a & m & z & -> & Hm). now rewrite cs_clamp_shape, clamp_shape. }
  rewrite E, <- C, <- A. symmetry. now apply z2le_le2z.
Qed.
Lemma clamp_val h : length h = 32%nat -> bytes_ok h -> le2z (cs_clamp h) = ed_clamp h /\ bytes_ok (cs_clamp h) /\ length (cs_clamp h) = 32%nat.
Proof.
  intros HL HB. destruct (cs_clamp_ok h HL HB) as [E D]. rewrite E. split; [|split; [apply z2le_ok|apply z2le_length]].
  rewrite le2z_z2le. apply Z.mod_small. change (256 ^ Z.of_nat 32) with (2 ^ 256). unfold ed_clamp in *.
  pose proof (Z.mod_pos_bound (le2z h / 8) (2 ^ 251) ltac:(reflexivity)). lia.
Qed.

(** C77. GenPubkey on CURVE25519_SHA256 returns the X25519 public key of RFC
    7748 of the clamped private key, u(kB) in 32 bytes, little-endian.  Partial:
    when u(kB) is one of the 19 largest residues the 32 bytes may instead be
    those of u - p modulo 2^256 (pack misses a case; which of the two holds
    depends on the limbs). *)
Theorem C77_csha_pub_partial key : bytes_ok key -> length key = 32%nat ->
  let u := mont_u (snd (ed_mul (ed_clamp key) ed_B)) in
  fst (csha_genPub key) = Ok (f25_enc u) \/
  (p25 - 19 <= fval u /\ fst (csha_genPub key) = Ok (z2le 32 (fval u - p25))).
Proof.
  intros HB HL u. unfold csha_genPub. rewrite HL. cbn [Nat.eqb negb]. unfold cs_Keygen. cbn [fst].
  destruct (clamp_val key HL HB) as (V & OB & OL). pose proof (ladder_ok _ OB OL) as [L0 _]. rewrite V in L0.
  unfold cs_core_x. destruct (cs_ladder (cs_set 9) (cs_clamp key)) as [s0 s1]. cbn [fst] in *.
  destruct (cr_pack _ _ (mrep_u _ _ L0)) as [E|[A E]]; [left|right; split; [exact A|]]; now rewrite E.
Qed.
(** any other length is refused *)
Theorem C77_csha_pub_length key : length key <> 32%nat -> exists e, csha_genPub key = (Err e, key).
Proof. intros H. unfold csha_genPub. apply Nat.eqb_neq in H. rewrite H. eexists. reflexivity. Qed.

(** C78. "GenPubkey and Signature leave the private key in the caller's slice as
    it was": false here, both overwrite it with the clamped key. *)
Theorem C78_csha_key_after key : bytes_ok key -> length key = 32%nat -> snd (csha_genPub key) = z2le 32 (ed_clamp key).
Proof. intros HB HL. unfold csha_genPub. rewrite HL. cbn [Nat.eqb negb]. unfold cs_Keygen. cbn [snd]. exact (proj1 (cs_clamp_ok key HL HB)). Qed.
Theorem C78_csha_sign_key_after H key msg r k : bytes_ok key -> length key = 32%nat -> csha_sign H key msg = Some (r, k) -> k = z2le 32 (ed_clamp key).
Proof.
  intros HB HL. unfold csha_sign. rewrite HL. cbn [Nat.eqb negb]. unfold cs_Keygen. destruct (cs_core_s (cs_clamp key) _); [|discriminate]. cbv zeta beta iota.
  intros E. assert (X : forall A (a b : A), Some a = Some b -> a = b) by (intros; congruence). apply X in E.
  assert (Y : forall (a b : result bytes) (c d : bytes), (a, c) = (b, d) -> c = d) by (intros; congruence). apply Y in E.
  rewrite <- E. exact (proj1 (cs_clamp_ok key HL HB)).
Qed.
Theorem C78_csha_key_unchanged_refuted : exists key, bytes_ok key /\ length key = 32%nat /\ snd (csha_genPub key) <> key.
Proof.
  exists (repeat 1 32). assert (B : bytes_ok (repeat 1 32)) by (repeat constructor; unfold byte_ok; lia).
  split; [exact B|]. split; [reflexivity|]. rewrite C78_csha_key_after by (exact B || reflexivity). intros E.
  apply (f_equal le2z) in E. vm_compute in E. discriminate E.
Qed.
(** it is unchanged exactly when the key was clamped already *)
Theorem C78_csha_key_unchanged_iff key : bytes_ok key -> length key = 32%nat -> (snd (csha_genPub key) = key <-> le2z key = ed_clamp key).
Proof.
  intros HB HL. rewrite C78_csha_key_after by assumption. destruct (clamp_val key HL HB) as (V & _). rewrite (proj1 (cs_clamp_ok key HL HB)) in V. split; intros E.
  - now rewrite E in V.
  - rewrite <- E, <- HL. now apply z2le_le2z.
Qed.

(** C79. Verify on CURVE25519_SHA256 accepts only signatures of 64 bytes under
    32-byte public keys below p (the part about the key). *)
Theorem C79_csha_verify_canonical H pub msg sig : bytes_ok pub -> csha_verify H pub msg sig = true ->
  length sig = 64%nat /\ length pub = 32%nat /\ msg <> [] /\ le2z pub < p25.
Proof.
  intros HB. unfold csha_verify. destruct (Nat.eqb_spec (length sig) 64) as [L|]; [|discriminate]. cbn [negb orb].
  destruct (Nat.eqb_spec (length pub) 32) as [L'|]; [|discriminate]. cbn [negb orb]. destruct msg as [|m0 msg]; [discriminate|]. cbn [length Nat.eqb].
  destruct (cs_canonical_sig sig); [|discriminate]. cbn [negb]. destruct (cs_canonical_pub pub) eqn:C; [|discriminate]. intros _.
  apply (cs_canonical_pub_ok pub HB) in C. repeat split; try assumption; [discriminate|apply C].
Qed.
Example C77_example : bytes_ok (repeat 1 32) /\ length (repeat 1 32) = 32%nat /\ le2z (repeat 1 32) <> ed_clamp (repeat 1 32).
Proof. split; [repeat constructor; unfold byte_ok; lia|]. split; [reflexivity|]. vm_compute. discriminate. Qed.

Print Assumptions C77_csha_pub_partial.
Print Assumptions C77_csha_pub_length.
Print Assumptions C78_csha_key_after.
Print Assumptions C78_csha_sign_key_after.
Print Assumptions C78_csha_key_unchanged_refuted.
Print Assumptions C78_csha_key_unchanged_iff.
Print Assumptions C79_csha_verify_canonical.
