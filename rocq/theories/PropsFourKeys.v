(** Property C102: a signature of a hash is accepted under at least two and at most four public keys, if under any. *)
From Coq Require Import ZArith List Lia.
From Verif Require Import Base Fp Weier Group EC Curves AllOrder EcFour SpecECDSA ModelK1 ModelECDSA ModelApi
  ProofECDSA ProofECDSA2 ProofECDSA3 ProofK1Api ProofK1Wit PropsK1 PropsR1.
Import ListNotations.
Local Open Scope Z_scope.

(** secp256k1: the keys are byte strings, counted by the point they stand for
    (coordinates are read modulo p, so a point may have several strings). *)
Theorem C102_k1_four_keys : forall B ID hash sig (pubs : list bytes),
  NoDup (map (point_of_bytes secp256k1) pubs) ->
  (forall pub, In pub pubs -> length pub = 64%nat /\ w_on secp256k1 (point_of_bytes secp256k1 pub) /\
     Verify B pub ID hash sig ECC_CURVE_SECP256K1 = Ret SUCCESS) ->
  (length pubs <= 4)%nat.
Proof.
  intros B ID hash sig pubs N H. rewrite <- (map_length (point_of_bytes secp256k1) pubs).
  apply (at_most_four secp256k1 secp256k1_valid secp256k1_order) with (e := be2z hash) (r := be2z (firstn 32 sig)) (s := be2z (skipn 32 sig));
    [vm_compute; reflexivity | vm_compute; reflexivity | exact N|].
  intros Q I. apply in_map_iff in I. destruct I as (pub & <- & I). destruct (H pub I) as (L & On & V). split; [exact On|].
  exact (proj2 (proj2 (proj1 (C03_k1_verify_is_ecdsa B pub ID hash sig L On) V))).
Qed.
Print Assumptions C102_k1_four_keys.
Theorem C102_r1_four_keys : forall B, implements (bk_r1 B) p256 -> forall ID hash sig (keys : list (pt p256)),
  NoDup keys ->
  (forall Q, In Q keys -> w_on p256 Q /\ Verify B (point_bytes p256 Q) ID hash sig ECC_CURVE_SECP256R1 = Ret SUCCESS) ->
  (length keys <= 4)%nat.
Proof.
  intros B HB ID hash sig keys N H.
  apply (at_most_four p256 p256_valid p256_order) with (e := be2z hash) (r := be2z (firstn 32 sig)) (s := be2z (skipn 32 sig));
    [vm_compute; reflexivity | vm_compute; reflexivity | exact N|].
  intros Q I. destruct (H Q I) as (On & V). split; [exact On|].
  exact (proj2 (proj2 (proj1 (C57_r1_verify_is_ecdsa B HB Q ID hash sig On) V))).
Qed.
Print Assumptions C102_r1_four_keys.
(** Nor is there ever only one: besides Q a second point is accepted. *)
Lemma k1_verify_point B Q ID hash sig : w_on secp256k1 Q ->
  (Verify B (point_bytes secp256k1 Q) ID hash sig ECC_CURVE_SECP256K1 = Ret SUCCESS <->
   length sig = 64%nat /\ length hash = 32%nat /\ ecdsa_valid secp256k1 Q (be2z hash) (be2z (firstn 32 sig)) (be2z (skipn 32 sig))).
Proof.
  intros Ho. rewrite k1_verify_eq, <- (ecdsa_verify_spec k1_curve secp256k1 k1_implements Q hash sig Ho).
  destruct (ecdsa_verify _ _ _ _); split; intros H; try discriminate; reflexivity.
Qed.
Theorem C102_k1_second_key : forall B Q ID hash sig, w_on secp256k1 Q ->
  Verify B (point_bytes secp256k1 Q) ID hash sig ECC_CURVE_SECP256K1 = Ret SUCCESS ->
  exists Q', w_on secp256k1 Q' /\ Q' <> Q /\ Verify B (point_bytes secp256k1 Q') ID hash sig ECC_CURVE_SECP256K1 = Ret SUCCESS.
Proof.
  intros B Q ID hash sig On V. apply (k1_verify_point B Q ID hash sig On) in V. destruct V as (L & L' & V).
  destruct (second_key secp256k1 secp256k1_valid secp256k1_order ltac:(vm_compute; reflexivity) Q _ _ _ On V) as (Q' & On' & N & V').
  exists Q'. split; [exact On'|]. split; [exact N|]. apply (k1_verify_point B Q' ID hash sig On'). exact (conj L (conj L' V')).
Qed.
Print Assumptions C102_k1_second_key.
Theorem C102_r1_second_key : forall B, implements (bk_r1 B) p256 -> forall Q ID hash sig, w_on p256 Q ->
  Verify B (point_bytes p256 Q) ID hash sig ECC_CURVE_SECP256R1 = Ret SUCCESS ->
  exists Q', w_on p256 Q' /\ Q' <> Q /\ Verify B (point_bytes p256 Q') ID hash sig ECC_CURVE_SECP256R1 = Ret SUCCESS.
Proof.
  intros B HB Q ID hash sig On V. apply (C57_r1_verify_is_ecdsa B HB Q ID hash sig On) in V. destruct V as (L & L' & V).
  destruct (second_key p256 p256_valid p256_order ltac:(vm_compute; reflexivity) Q _ _ _ On V) as (Q' & On' & N & V').
  exists Q'. split; [exact On'|]. split; [exact N|]. apply (C57_r1_verify_is_ecdsa B HB Q' ID hash sig On'). exact (conj L (conj L' V')).
Qed.
Print Assumptions C102_r1_second_key.
(** The key of the demonstration signature is one of the at most four. *)
Example C102_met : let pub := point_bytes secp256k1 (w_G secp256k1) in
  NoDup (map (point_of_bytes secp256k1) [pub]) /\ length pub = 64%nat /\ w_on secp256k1 (point_of_bytes secp256k1 pub) /\
  Verify demo_B pub None (hash_of 5) (demo_sig 5) ECC_CURVE_SECP256K1 = Ret SUCCESS /\ implements (bk_r1 demo_R1) p256.
Proof.
  intros pub. destruct C03_example as (L & On & _).
  split; [constructor; [intros [] | constructor]|]. split; [exact L|]. split; [exact On|]. split; [apply C02_example | exact R1_contract_satisfiable].
Qed.
