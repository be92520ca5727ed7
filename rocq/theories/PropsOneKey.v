(** Property C101: each point of a curve of prime order is the public key of one private key. *)
From Coq Require Import ZArith List Lia Znumtheory Bool.
From Verif Require Import Base Fp Weier Group EC Curves AllOrder CycGroup EcCyc SpecECDSA ModelK1 ModelECDSA ModelApi
  ProofECDSA ProofECDSA2 ProofECDSA3 ProofK1Api ProofK1Wit ModelPasta PropsK1 PropsR1 PropsPasta.
Import ListNotations.
Local Open Scope Z_scope.

Lemma app_inj_length (a b c d : bytes) : length a = length c -> a ++ b = c ++ d -> a = c /\ b = d.
Proof.
  revert c. induction a as [|x a IH]; intros [|y c] L E; cbn in L, E; try discriminate; [split; [reflexivity | exact E]|].
  injection L as L. injection E as -> E. destruct (IH c L E) as [-> ->]. split; reflexivity.
Qed.
Lemma ret_inj (a b : bytes) (s : Z) : Ret (Some a, s) = Ret (Some b, s) -> a = b.
Proof. intros E. injection E as E. exact E. Qed.
Section Inj.
Variable c : wcurve.
Hypothesis Hp : 0 < w_p c < 256 ^ 32.
Hypothesis Hb : w_b c mod w_p c <> 0.
Lemma bytes_inj P Q : w_on c P -> w_on c Q -> point_bytes c P = point_bytes c Q -> P = Q.
Proof using Hp Hb.
  intros HP HQ H. unfold point_bytes in H.
  assert (B : forall x : fp (w_p c), be2z (z2be 32 (fval x)) = fval x).
  { intros x. pose proof (fval_bound (w_p c) x (proj1 Hp)). rewrite be2z_z2be. apply Z.mod_small. change (256 ^ Z.of_nat 32) with (256 ^ 32). lia. }
  assert (C : forall R, be2z (z2be 32 (px c R)) = px c R /\ be2z (z2be 32 (py c R)) = py c R).
  { intros [|x y]; cbn [px py]; [split; reflexivity | split; apply B]. }
  apply app_inj_length in H; [|rewrite !z2be_length; reflexivity]. destruct H as [Ex Ey].
  apply (f_equal be2z) in Ex. apply (f_equal be2z) in Ey. rewrite !(proj1 (C _)) in Ex. rewrite !(proj2 (C _)) in Ey.
  destruct P as [|x1 y1].
  - symmetry. apply (on_00 c Hb); [exact HQ| |]; [rewrite <- Ex|rewrite <- Ey]; reflexivity.
  - destruct Q as [|x2 y2].
    + apply (on_00 c Hb); [exact HP| |]; [rewrite Ex|rewrite Ey]; reflexivity.
    + cbn [px py] in Ex, Ey. apply fp_eq in Ex. apply fp_eq in Ey. subst. reflexivity.
Qed.
End Inj.
Section One.
Variable c : wcurve.
Hypothesis Hv : w_valid c.
Hypothesis Hord : forall P, w_on c P -> w_mul c (w_n c) P = pinf c.
Hypothesis Hn : 2 < w_n c < 256 ^ 32.
Hypothesis Hbig : 2 * w_p c + 1 < w_n c * w_n c.
Hypothesis inj : forall P Q, w_on c P -> w_on c Q -> point_bytes c P = point_bytes c Q -> P = Q.
Variable gen : bytes -> outcome (option bytes * Z).
Variable bad : Z.
Hypothesis Hgen : forall k, bytes_ok k -> gen k =
  if (length k =? 32)%nat && (0 <? be2z k) && (be2z k <? w_n c)
  then Ret (Some (point_bytes c (w_mul c (be2z k) (w_G c))), SUCCESS) else Ret (None, bad).
Lemma one_key Q : w_on c Q -> Q <> pinf c -> exists k, bytes_ok k /\ gen k = Ret (Some (point_bytes c Q), SUCCESS) /\
  forall k', bytes_ok k' -> gen k' = Ret (Some (point_bytes c Q), SUCCESS) -> k' = k.
Proof using Hv Hord Hn Hbig inj Hgen.
  intros HQ NQ. destruct (w_cyclic c Hv Hord (proj1 Hn) Hbig Q HQ) as (d & Hd & ->).
  assert (D0 : d <> 0) by (intros ->; apply NQ; reflexivity).
  assert (Ed : be2z (z2be 32 d) = d) by (rewrite be2z_z2be; apply Z.mod_small; change (256 ^ Z.of_nat 32) with (256 ^ 32); lia).
  assert (ON : forall k, w_on c (w_mul c k (w_G c))) by (intros k; exact (zmul_ok _ _ _ _ _ (HWc c Hv) k _ (wv_Gon c Hv))).
  exists (z2be 32 d). split; [apply z2be_ok|]. split.
  - rewrite Hgen by apply z2be_ok. rewrite Ed, z2be_length. replace (0 <? d) with true by (symmetry; apply Z.ltb_lt; lia).
    replace (d <? w_n c) with true by (symmetry; apply Z.ltb_lt; lia). reflexivity.
  - intros k' Ok E. rewrite Hgen in E by exact Ok.
    destruct (Nat.eqb_spec (length k') 32) as [L|]; [|discriminate]. destruct (Z.ltb_spec 0 (be2z k')) as [P0|]; [|discriminate].
    destruct (Z.ltb_spec (be2z k') (w_n c)) as [Pn|]; [|discriminate]. cbn [andb] in E. apply ret_inj in E.
    apply inj in E; [|apply ON..]. apply (w_mul_inj c Hv Hord) in E; [|lia..]. rewrite <- (z2be_be2z k' Ok), L, E. reflexivity.
Qed.
End One.

(** secp256k1 and secp256r1: GenPubkey gives every point but infinity for exactly one key. *)
Theorem C101_k1_one_key : forall B Q, w_on secp256k1 Q -> Q <> pinf secp256k1 ->
  exists k, bytes_ok k /\ GenPubkey B k ECC_CURVE_SECP256K1 = Ret (Some (point_bytes secp256k1 Q), SUCCESS) /\
  forall k', bytes_ok k' -> GenPubkey B k' ECC_CURVE_SECP256K1 = Ret (Some (point_bytes secp256k1 Q), SUCCESS) -> k' = k.
Proof.
  intros B Q. apply (one_key secp256k1 secp256k1_valid secp256k1_order) with (bad := ECC_PRIKEY_ILLEGAL).
  - split; vm_compute; reflexivity.
  - vm_compute. reflexivity.
  - apply bytes_inj; [split; vm_compute; reflexivity | vm_compute; discriminate].
  - intros k Ok. exact (C01_k1_public_key B k Ok).
Qed.
Print Assumptions C101_k1_one_key.
Theorem C101_r1_one_key : forall B, implements (bk_r1 B) p256 -> forall Q, w_on p256 Q -> Q <> pinf p256 ->
  exists k, bytes_ok k /\ GenPubkey B k ECC_CURVE_SECP256R1 = Ret (Some (point_bytes p256 Q), SUCCESS) /\
  forall k', bytes_ok k' -> GenPubkey B k' ECC_CURVE_SECP256R1 = Ret (Some (point_bytes p256 Q), SUCCESS) -> k' = k.
Proof.
  intros B HB Q. apply (one_key p256 p256_valid p256_order) with (bad := ECC_PRIKEY_ILLEGAL).
  - split; vm_compute; reflexivity.
  - vm_compute. reflexivity.
  - apply bytes_inj; [split; vm_compute; reflexivity | vm_compute; discriminate].
  - intros k Ok. exact (C57_r1_public_key B HB k Ok).
Qed.
Print Assumptions C101_r1_one_key.

(** PASTA: no two keys have the same public key, *)
Lemma pallas_inj P Q : w_on pallas P -> w_on pallas Q -> point_bytes pallas P = point_bytes pallas Q -> P = Q.
Proof. apply bytes_inj; [split; vm_compute; reflexivity | vm_compute; discriminate]. Qed.
Lemma last_range n : 2 ^ 254 < n - 1 -> 0 <= n - 1 < n. Proof. lia. Qed.
Lemma last_no n d : 2 ^ 254 < n - 1 -> d = n - 1 -> d < 2 ^ 254 -> False. Proof. lia. Qed.
Lemma pallas_range : 2 ^ 254 < w_n pallas - 1. Proof. vm_compute. reflexivity. Qed.
Lemma pallas_on k : w_on pallas (w_mul pallas k (w_G pallas)).
Proof. exact (zmul_ok _ _ _ _ _ (HWc pallas pallas_valid) k _ (wv_Gon pallas pallas_valid)). Qed.
Lemma pasta_key_dec d : bytes_ok d -> {pasta_key d} + {~ pasta_key d}.
Proof.
  intros Od. destruct (Nat.eq_dec (length d) 32) as [L|L]; [|right; intros (_ & L' & _); exact (L L')].
  destruct (Z_lt_dec (be2z d) (2 ^ 254)) as [H|H]; [left; repeat split; assumption | right; intros (_ & _ & H'); exact (H H')].
Qed.
Local Opaque w_mul pallas.
Lemma pasta_scalar json rnd B d k : runs_pasta json rnd B -> bytes_ok d -> 0 <= k < w_n pallas ->
  GenPubkey B d ECC_CURVE_PASTA = Ret (Some (point_bytes pallas (w_mul pallas k (w_G pallas))), SUCCESS) ->
  be2z d = k /\ length d = 32%nat /\ be2z d < 2 ^ 254.
Proof.
  intros HB Od Hk E. destruct (C69_pasta_keygen json rnd B d HB Od) as [Y X].
  destruct (pasta_key_dec d Od) as [K|K]; [|rewrite (X K) in E; discriminate]. rewrite (Y K) in E. apply ret_inj in E.
  destruct K as (_ & L & H). apply pallas_inj in E; [|apply pallas_on..]. pose proof pallas_range as R. pose proof (be2z_bound d Od) as [D _].
  apply (w_mul_inj pallas pallas_valid pallas_order) in E; [|lia|exact Hk]. repeat split; assumption.
Qed.
Theorem C101_pasta_partial : forall json rnd B d d' pub, runs_pasta json rnd B -> bytes_ok d -> bytes_ok d' ->
  GenPubkey B d ECC_CURVE_PASTA = Ret (Some pub, SUCCESS) -> GenPubkey B d' ECC_CURVE_PASTA = Ret (Some pub, SUCCESS) -> d = d'.
Proof.
  intros json rnd B d d' pub HB O O' E E'. destruct (C69_pasta_keygen json rnd B d HB O) as [Y X].
  destruct (pasta_key_dec d O) as [K|K]; [|rewrite (X K) in E; discriminate]. rewrite (Y K) in E. apply ret_inj in E. subst pub.
  destruct K as (_ & L & H). pose proof pallas_range as R. pose proof (be2z_bound d O) as [D _].
  destruct (pasta_scalar json rnd B d' (be2z d) HB O' ltac:(lia) E') as (F & L' & _).
  rewrite <- (z2be_be2z d O), <- (z2be_be2z d' O'), L, L', F. reflexivity.
Qed.
Print Assumptions C101_pasta_partial.
(** but the negative of the generator has no key: keys end at 2^254, the order lies above. *)
Theorem C101_pasta_refuted : forall json rnd B, runs_pasta json rnd B -> exists Q, w_on pallas Q /\ Q <> pinf pallas /\ Q = w_neg pallas (w_G pallas) /\
  forall d, bytes_ok d -> GenPubkey B d ECC_CURVE_PASTA <> Ret (Some (point_bytes pallas Q), SUCCESS).
Proof.
  intros json rnd B HB. exists (w_mul pallas (w_n pallas - 1) (w_G pallas)). pose proof pallas_range as R.
  pose proof (w_last pallas pallas_valid) as E. split; [apply pallas_on|]. split.
  - rewrite E. exact (w_neg_ne pallas pallas_valid).
  - split; [exact E|]. intros d Od V. destruct (pasta_scalar json rnd B d (w_n pallas - 1) HB Od (last_range _ R) V) as (F & _ & H).
    exact (last_no _ _ R F H).
Qed.
Print Assumptions C101_pasta_refuted.
(** The generator of secp256k1 is such a point, of the key 1. *)
Example C101_met : w_on secp256k1 (w_G secp256k1) /\ w_G secp256k1 <> pinf secp256k1 /\ bytes_ok key1 /\
  GenPubkey demo_B key1 ECC_CURVE_SECP256K1 = Ret (Some (point_bytes secp256k1 (w_G secp256k1)), SUCCESS) /\ implements (bk_r1 demo_R1) p256.
Proof.
  split; [exact (wv_Gon _ secp256k1_valid)|]. split; [apply gen_ne|]. split; [exact key1_ok|]. split; [exact PropsK1.demo_pub | exact R1_contract_satisfiable].
Qed.
