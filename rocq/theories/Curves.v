(** The standard curves: parameters from the standards documents, with
    machine-checked validity (prime field, prime order, base point on the curve
    and of that order).  Specification side only: the models restate the
    parameters as the Go code spells them. *)
Require Import ZArith List Lia Znumtheory Uint63 Bool.
Require Import Verif.Base Verif.Fp Verif.Mont63 Verif.Weier Verif.Jac Verif.Group Verif.EC
  Verif.Primes Verif.OrderCheck.
Open Scope Z_scope.

(** SEC 2: secp256k1. *)
Definition secp256k1 : wcurve := {|
  w_p := 2^256 - 2^32 - 977; w_a := 0; w_b := 7;
  w_gx := 0x79be667ef9dcbbac55a06295ce870b07029bfcdb2dce28d959f2815b16f81798;
  w_gy := 0x483ada7726a3c4655da4fbfc0e1108a8fd17b448a68554199c47d08ffb10d4b8;
  w_n := 0xfffffffffffffffffffffffffffffffebaaedce6af48a03bbfd25e8cd0364141 |}.

(** FIPS 186-4: P-256. *)
Definition p256 : wcurve := {|
  w_p := 2^256 - 2^224 + 2^192 + 2^96 - 1; w_a := -3;
  w_b := 0x5ac635d8aa3a93e7b3ebbd55769886bc651d06b0cc53b0f63bce3c3e27d2604b;
  w_gx := 0x6b17d1f2e12c4247f8bce6e563a440f277037d812deb33a0f4a13945d898c296;
  w_gy := 0x4fe342e2fe1a7f9b8ee7eb4a7c0f9e162bce33576b315ececbb6406837bf51f5;
  w_n := 0xffffffff00000000ffffffffffffffffbce6faada7179e84f3b9cac2fc632551 |}.

(** GB/T 32918.5: the recommended SM2 curve. *)
Definition sm2p256 : wcurve := {|
  w_p := 2^256 - 2^224 - 2^96 + 2^64 - 1; w_a := -3;
  w_b := 0x28e9fa9e9d9f5e344d5a9e4bcf6509a7f39789f515ab8f92ddbcbd414d940e93;
  w_gx := 0x32c4ae2c1f1981195f9904466a39c9948fe30bbff2660be1715a4589334c74c7;
  w_gy := 0xbc3736a2f4f6779c59bdcee36b692153d0a9877cc62a474002df32e52139f0a0;
  w_n := 0xfffffffeffffffffffffffffffffffff7203df6b21c6052b53bbf40939d54123 |}.

(** Pallas, with the base point (1, sqrt 6) used by Mina. *)
Definition pallas : wcurve := {|
  w_p := 0x40000000000000000000000000000000224698fc094cf91b992d30ed00000001;
  w_a := 0; w_b := 5; w_gx := 1;
  w_gy := 12418654782883325593414442427049395787963493412651469444558597405572177144507;
  w_n := 0x40000000000000000000000000000000224698fc0994a8dd8c46eb2100000001 |}.

Definition curve_check (m : mctx) (c : wcurve) : bool :=
  mctx_ok m && (mc_p m =? w_p c) && (2 <? w_p c) && (2 <? w_n c)
  && negb ((4 * w_a c ^ 3 + 27 * w_b c ^ 2) mod w_p c =? 0)
  && ((w_gy c * w_gy c) mod w_p c =?
      (w_gx c * w_gx c * w_gx c + w_a c * w_gx c + w_b c) mod w_p c)
  && o_check m (c_of m (w_a c)) (c_of m (w_gx c)) (c_of m (w_gy c)) (w_n c).

Lemma curve_check_ok m c : prime (w_p c) -> prime (w_n c) -> curve_check m c = true -> w_valid c.
Proof.
  intros Hp Hn H. unfold curve_check in H.
  rewrite !andb_true_iff in H. destruct H as ((((((H1 & H2) & H3) & H4) & H5) & H6) & H7).
  apply Z.eqb_eq in H2, H6. apply Z.ltb_lt in H3, H4.
  apply negb_true_iff, Z.eqb_neq in H5.
  assert (Hf : w_field_ok c) by (constructor; assumption).
  assert (HG : w_on c (w_G c)) by (apply paff_on_iff; exact H6).
  constructor; [exact Hf|exact Hn|exact HG|].
  eapply (o_check_ok m); try exact H7; try assumption; apply c_of_rel; exact H1.
Qed.

(** Concrete multiples: a curve record whose base point is the point multiplied. *)
Definition mul_check (m : mctx) (c : wcurve) (k x y : Z) : bool :=
  mctx_ok m && (mc_p m =? w_p c) && (2 <? w_p c) && (0 <? k)
  && negb ((4 * w_a c ^ 3 + 27 * w_b c ^ 2) mod w_p c =? 0)
  && ((w_gy c * w_gy c) mod w_p c =?
      (w_gx c * w_gx c * w_gx c + w_a c * w_gx c + w_b c) mod w_p c)
  && m_check m (c_of m (w_a c)) (c_of m (w_gx c)) (c_of m (w_gy c)) k x y.

Lemma mul_check_ok m c k x y : prime (w_p c) -> mul_check m c k x y = true ->
  w_mul c k (w_G c) = paff c x y.
Proof.
  intros Hp H. unfold mul_check in H.
  rewrite !andb_true_iff in H. destruct H as ((((((H1 & H2) & H3) & H4) & H5) & H6) & H7).
  apply Z.eqb_eq in H2, H6. apply Z.ltb_lt in H3, H4.
  apply negb_true_iff, Z.eqb_neq in H5.
  assert (Hf : w_field_ok c) by (constructor; assumption).
  assert (HG : w_on c (w_G c)) by (apply paff_on_iff; exact H6).
  eapply (m_check_ok m); try exact H7; try assumption; apply c_of_rel; exact H1.
Qed.

Lemma secp256k1_valid : w_valid secp256k1.
Proof.
  apply (curve_check_ok ctx_k1p); [exact prime_k1p|exact prime_k1n|]. vm_compute. reflexivity.
Qed.
Lemma p256_valid : w_valid p256.
Proof.
  apply (curve_check_ok ctx_r1p); [exact prime_r1p|exact prime_r1n|]. vm_compute. reflexivity.
Qed.
Lemma sm2p256_valid : w_valid sm2p256.
Proof.
  apply (curve_check_ok ctx_sm2p); [exact prime_sm2p|exact prime_sm2n|]. vm_compute. reflexivity.
Qed.
Lemma pallas_valid : w_valid pallas.
Proof.
  apply (curve_check_ok ctx_pallasp); [exact prime_pallasp|exact prime_pallasq|]. vm_compute. reflexivity.
Qed.
