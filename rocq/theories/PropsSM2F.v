(** Property C30: the nine-limb SM2 field arithmetic. *)
From Coq Require Import ZArith List Lia Bool.
From Verif Require Import Base ModelSM2F ProofSM2R ProofSM2F ProofSM2M.
Import ListNotations.
Open Scope Z_scope.

(** The integer nine limbs stand for: limbs of 29, 28, 29, ... bits. *)
Definition limbs_value (a : fe) : Z :=
  fold_right Z.add 0 (map (fun '(x, o) => x * 2 ^ o) (combine a [0; 29; 57; 86; 114; 143; 171; 200; 228])).
(** In-range operands: even limbs below 2^30, odd limbs below 2^29. *)
Definition in_range (a : fe) : Prop :=
  length a = 9%nat /\ Forall (fun '(x, b) => 0 <= x < 2 ^ b) (combine a [30; 29; 30; 29; 30; 29; 30; 29; 30]).
(** [a] represents the residue [x]: Montgomery form with factor 2^257. *)
Definition represents (a : fe) (x : Z) : Prop :=
  in_range a /\ 0 <= x < sm2_P /\ (x * 2 ^ 257) mod sm2_P = limbs_value a mod sm2_P.

Lemma in_range_ok a : in_range a <-> fe_ok a.
Proof.
  split.
  - intros [L F]. do 10 (destruct a as [|? a]; try discriminate). cbn [combine] in F.
    repeat match goal with H : Forall _ (_ :: _) |- _ => inversion H; clear H; subst end.
    repeat constructor; assumption || lia.
  - intros H. split; [apply fe_len, H|]. fe_split H. cbn [combine]. repeat constructor; assumption || lia.
Qed.
Lemma limbs_value_horner a : fe_ok a -> limbs_value a = sm2_horner true a.
Proof. intros H. fe_split H. unfold limbs_value. cbn [combine map fold_right sm2_horner negb]. lia. Qed.
Lemma represents_iff a x : represents a x <-> fe_ok a /\ x = sm2_to_big a.
Proof.
  unfold represents. rewrite in_range_ok. split.
  - intros (O & B & E). split; [exact O|]. rewrite limbs_value_horner in E by exact O. unfold sm2_to_big.
    rewrite <- Zmult_mod_idemp_l, <- E, Zmult_mod_idemp_l, <- Z.mul_assoc, Zmult_mod, RInv_ok, Z.mul_1_r, Z.mod_mod by discriminate.
    symmetry. apply Z.mod_small, B.
  - intros (O & ->). split; [exact O|]. split; [apply to_big_range|]. rewrite limbs_value_horner by exact O. unfold sm2_to_big.
    rewrite Zmult_mod_idemp_l, <- Z.mul_assoc, (Z.mul_comm sm2_RInverse), Zmult_mod, RInv_ok, Z.mul_1_r, Z.mod_mod by discriminate.
    reflexivity.
Qed.

(** Addition, subtraction and the conversions are exact for all operands in
    range; multiplication and squaring are exact unless an elimination step of
    the reduction underflows ([mul_safe], [square_safe]). *)
Theorem C30_sm2_field_partial :
  (forall a b x y, represents a x -> represents b y ->
     represents (sm2_add a b) ((x + y) mod sm2_P) /\
     represents (sm2_sub a b) ((x - y) mod sm2_P) /\
     (mul_safe a b = true -> represents (sm2_mul a b) ((x * y) mod sm2_P)) /\
     (square_safe a = true -> represents (sm2_square a) ((x * x) mod sm2_P))) /\
  (forall v, represents (sm2_from_big v) (v mod sm2_P)) /\
  (forall a x, represents a x -> sm2_to_big a = x).
Proof.
  split; [|split].
  - intros a b x y Ha Hb. apply represents_iff in Ha, Hb. destruct Ha as [Ha ->], Hb as [Hb ->].
    split; [|split; [|split]]; [| |intros Hs..]; apply represents_iff.
    + destruct (sm2_add_ok a b Ha Hb) as [O E]. rewrite E. auto.
    + destruct (sm2_sub_ok a b Ha Hb) as [O E]. rewrite E. auto.
    + destruct (sm2_mul_ok a b Ha Hb Hs) as [O E]. rewrite E. auto.
    + destruct (sm2_square_ok a Ha Hs) as [O E]. rewrite E. auto.
  - intros v. apply represents_iff. destruct (sm2_from_big_ok v) as [O E]. rewrite E. auto.
  - intros a x H. apply represents_iff in H. symmetry. apply H.
Qed.
Print Assumptions C30_sm2_field_partial.

(** The safety condition holds for ordinary operands, extreme ones included. *)
Example C30_safe_example :
  let top := [2^30-1; 2^29-1; 2^30-1; 2^29-1; 2^30-1; 2^29-1; 2^30-1; 2^29-1; 2^30-1] in
  let g := sm2_from_big 0x32C4AE2C1F1981195F9904466A39C9948FE30BBFF2660BE1715A4589334C74C7 in
  represents g 0x32C4AE2C1F1981195F9904466A39C9948FE30BBFF2660BE1715A4589334C74C7 /\ in_range top /\
  mul_safe top top = true /\ mul_safe top g = true /\ mul_safe g g = true /\ square_safe g = true.
Proof.
  cbv zeta. split; [|split].
  - apply represents_iff. split; [apply sm2_from_big_ok|]. vm_compute. reflexivity.
  - split; [reflexivity|]. repeat constructor; discriminate.
  - vm_compute. auto.
Qed.

(** Without the condition the property is false: two in-range operands whose
    product is wrong. *)
Theorem C30_sm2_mul_refuted : exists a b x y,
  represents a x /\ represents b y /\ ~ represents (sm2_mul a b) ((x * y) mod sm2_P).
Proof.
  exists wit_a, wit_b, (sm2_to_big wit_a), (sm2_to_big wit_b).
  destruct wit_mul as (Ha & Hb & H). rewrite !represents_iff. split; [auto|]. split; [auto|].
  intros [_ E]. apply H. symmetry. exact E.
Qed.
Print Assumptions C30_sm2_mul_refuted.

(** The same for squaring, with an operand that is the Montgomery form of the
    x-coordinate of a point on the curve. *)
Theorem C30_sm2_square_refuted : exists v, let a := sm2_from_big v in
  represents a v /\ ~ represents (sm2_square a) ((v * v) mod sm2_P).
Proof.
  exists 0xfcf771deeb0021b7298d30b607502d0c98086c894049b1ea2269a3e756a2e911. cbv zeta.
  rewrite !represents_iff. split.
  - split; [apply sm2_from_big_ok|]. vm_compute. reflexivity.
  - intros [_ E]. revert E. vm_compute. discriminate.
Qed.
Print Assumptions C30_sm2_square_refuted.
