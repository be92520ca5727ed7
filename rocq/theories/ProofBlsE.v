(** The field operations of the BLS code on Montgomery forms. *)
From Coq Require Import ZArith List Bool Lia.
From Verif Require Import ModelBlsF SpecBls ProofBlsF ModelX86 ModelBlsAsm ProofBlsAsm.
Import ListNotations.
Local Open Scope Z_scope.

Definition bls_Ri : Z := 0x14fec701e8fb0ce9ed5e64273c4f538b1797ab1458a88de9343ea97914956dc87fe11274d898fafbf4d38259380b4820.
Lemma R_Ri : (bls_R * bls_Ri) mod bls_p = 1.
Proof. vm_compute. reflexivity. Qed.
Lemma p_pos : 1 < bls_p.
Proof. reflexivity. Qed.

Opaque bls_p bls_R bls_Ri.

Section R.
Variables (p R Ri : Z) (Hp : 1 < p) (HR : (R * Ri) mod p = 1).
Lemma R_cancel_gen : forall a b, (R * a) mod p = (R * b) mod p -> a mod p = b mod p.
Proof.
  intros a b H.
  assert (E : forall x, (Ri * ((R * x) mod p)) mod p = x mod p).
  { intros x. rewrite Z.mul_mod_idemp_r by lia.
    replace (Ri * (R * x)) with (R * Ri * x) by ring.
    rewrite <- Z.mul_mod_idemp_l, HR, Z.mul_1_l by lia. reflexivity. }
  rewrite <- (E a), <- (E b), H. reflexivity.
Qed.
End R.
Lemma R_cancel : forall a b, (bls_R * a) mod bls_p = (bls_R * b) mod bls_p -> a mod bls_p = b mod bls_p.
Proof. exact (R_cancel_gen bls_p bls_R bls_Ri p_pos R_Ri). Qed.

Lemma fe_of_in : forall x v, fe_of x v -> fe6 x /\ bval x < bls_p.
Proof.
  intros x v (L & W & V & E). split; [exact (conj L W)|]. rewrite E.
  apply Z.mod_pos_bound. pose proof p_pos. lia.
Qed.

Lemma fe_of_mk : forall x v, fe6 x -> bval x mod bls_p = bval x -> bval x mod bls_p = (v * bls_R) mod bls_p ->
  fe_of x (v mod bls_p).
Proof.
  intros x v F S E. pose proof p_pos. repeat split; try apply F; try (apply Z.mod_pos_bound; lia).
  rewrite Z.mul_mod_idemp_l by lia. rewrite <- E. symmetry; exact S.
Qed.

(** every reduced word list is the form of exactly one number *)
Lemma fe_of_ex : forall x, fe6 x -> bval x < bls_p -> fe_of x ((bval x * bls_Ri) mod bls_p).
Proof.
  intros x F B. pose proof p_pos. pose proof (fe6_val x F).
  assert (M : bval x mod bls_p = bval x) by (apply Z.mod_small; lia).
  apply fe_of_mk; [exact F|exact M|].
  replace (bval x * bls_Ri * bls_R) with (bval x * (bls_R * bls_Ri)) by ring.
  rewrite <- Z.mul_mod_idemp_r, R_Ri, Z.mul_1_r by lia. reflexivity.
Qed.

Lemma bval_inj : forall x y, length x = length y -> words x -> words y -> bval x = bval y -> x = y.
Proof.
  induction x as [|a x IH]; intros [|b y] L Hx Hy E; try discriminate L; [reflexivity|].
  inversion_clear Hx; inversion_clear Hy. cbn [bval] in E. unfold word in *.
  assert (a = b /\ bval x = bval y) as [-> E2] by (unfold B64 in *; lia).
  f_equal. apply IH; auto.
Qed.
Lemma fe_of_eq : forall x y v, fe_of x v -> fe_of y v -> x = y.
Proof.
  intros x y v (L & W & _ & E) (L' & W' & _ & E'). apply bval_inj; congruence || assumption.
Qed.
Lemma fe_of_inj : forall x u v, fe_of x u -> fe_of x v -> u = v.
Proof.
  intros x u v (_ & _ & U & E) (_ & _ & V & E').
  assert (H : u mod bls_p = v mod bls_p).
  { apply R_cancel. rewrite !(Z.mul_comm bls_R). congruence. }
  rewrite !Z.mod_small in H by assumption. exact H.
Qed.

Section Ops.
Variables (x y : list Z) (u v : Z).
Hypotheses (Hx : fe_of x u) (Hy : fe_of y v).

Lemma add_gen : forall r, fe6 r -> bval r = (bval x + bval y) mod bls_p -> fe_of r ((u + v) mod bls_p).
Proof using All.
  intros r F E. pose proof p_pos. destruct Hx as (_ & _ & _ & Ex), Hy as (_ & _ & _ & Ey).
  apply fe_of_mk; [exact F| |]; rewrite E, Z.mod_mod by lia; [reflexivity|].
  rewrite Ex, Ey, Z.mul_add_distr_r. symmetry. apply Z.add_mod. lia.
Qed.
Lemma sub_gen : forall r, fe6 r -> bval r = (bval x - bval y) mod bls_p -> fe_of r ((u - v) mod bls_p).
Proof using All.
  intros r F E. pose proof p_pos. destruct Hx as (_ & _ & _ & Ex), Hy as (_ & _ & _ & Ey).
  apply fe_of_mk; [exact F| |]; rewrite E, Z.mod_mod by lia; [reflexivity|].
  rewrite Ex, Ey, Z.mul_sub_distr_r. symmetry. apply Zminus_mod.
Qed.
Lemma neg_gen : forall r, fe6 r -> bval r = (- bval x) mod bls_p -> fe_of r ((- u) mod bls_p).
Proof using Hx.
  intros r F E. pose proof p_pos. destruct Hx as (_ & _ & _ & Ex).
  apply fe_of_mk; [exact F| |]; rewrite E, Z.mod_mod by lia; [reflexivity|].
  rewrite Ex. rewrite <- (Z.sub_0_l ((u * bls_R) mod bls_p)), Zminus_mod_idemp_r. f_equal. ring.
Qed.
End Ops.

Lemma mul_gen : forall r x y u v, fe6 r -> 0 <= bval r < bls_p ->
  (bls_R * bval r) mod bls_p = (bval x * bval y) mod bls_p ->
  bval x mod bls_p = (u * bls_R) mod bls_p -> bval y mod bls_p = (v * bls_R) mod bls_p ->
  fe_of r ((u * v) mod bls_p).
Proof.
  intros r x y u v F B E Ex Ey. pose proof p_pos.
  apply fe_of_mk; [exact F|apply Z.mod_small, B|].
  apply R_cancel. rewrite E, Z.mul_mod, Ex, Ey, <- Z.mul_mod by lia. f_equal. ring.
Qed.

Lemma pb_add : forall x y u v, fe_of x u -> fe_of y v -> fe_of (fb_add x y) ((u + v) mod bls_p).
Proof.
  intros x y u v Hx Hy. destruct (fe_of_in _ _ Hx) as [Fx Bx], (fe_of_in _ _ Hy) as [Fy By].
  destruct (fb_add_spec x y Fx Fy Bx By) as [F E]. exact (add_gen x y u v Hx Hy _ F E).
Qed.
Lemma pb_sub : forall x y u v, fe_of x u -> fe_of y v -> fe_of (fb_sub x y) ((u - v) mod bls_p).
Proof.
  intros x y u v Hx Hy. destruct (fe_of_in _ _ Hx) as [Fx Bx], (fe_of_in _ _ Hy) as [Fy By].
  destruct (fb_sub_spec x y Fx Fy Bx By) as [F E]. exact (sub_gen x y u v Hx Hy _ F E).
Qed.
Lemma pb_neg : forall x u, fe_of x u -> fe_of (fb_neg x) ((- u) mod bls_p).
Proof.
  intros x u Hx. destruct (fe_of_in _ _ Hx) as [Fx Bx].
  destruct (fb_neg_spec x Fx Bx) as [F E]. exact (neg_gen x u Hx _ F E).
Qed.
Lemma pb_double : forall x u, fe_of x u -> fe_of (fb_double x) ((2 * u) mod bls_p).
Proof.
  intros x u Hx. replace (2 * u) with (u + u) by ring. exact (pb_add x x u u Hx Hx).
Qed.
Lemma pb_mul : forall x y u v, fe_of x u -> fe_of y v -> fe_of (fb_mul x y) ((u * v) mod bls_p).
Proof.
  intros x y u v Hx Hy. destruct (fe_of_in _ _ Hx) as [Fx Bx], (fe_of_in _ _ Hy) as [Fy By].
  destruct (fb_mul_raw x y Fx Fy By) as (F & B & E).
  pose proof p_pos.
  apply (mul_gen _ x y u v F B E);
    [destruct Hx as (_ & _ & _ & ->)|destruct Hy as (_ & _ & _ & ->)]; apply Z.mod_mod; lia.
Qed.

(** amd64 *)
Section Amd.
Variables (junk : list Z) (c o : Z).
Hypothesis J : length junk = 17%nat.
Lemma xb_add : forall x y u v, fe_of x u -> fe_of y v ->
  fe_of (xcall asm_add junk c o x y) ((u + v) mod bls_p) /\
  fe_of (xcall asm_addAssign junk c o x y) ((u + v) mod bls_p).
Proof using All.
  intros x y u v Hx Hy. destruct (fe_of_in _ _ Hx) as [Fx Bx], (fe_of_in _ _ Hy) as [Fy By].
  rewrite asm_add_eq, asm_addAssign_eq by (assumption || apply Fx || apply Fy).
  destruct (x_add_spec x y Fx Fy Bx By) as [F E].
  exact (conj (add_gen x y u v Hx Hy _ F E) (add_gen x y u v Hx Hy _ F E)).
Qed.
Lemma xb_sub : forall x y u v, fe_of x u -> fe_of y v ->
  fe_of (xcall asm_sub junk c o x y) ((u - v) mod bls_p) /\
  fe_of (xcall asm_subAssign junk c o x y) ((u - v) mod bls_p).
Proof using All.
  intros x y u v Hx Hy. destruct (fe_of_in _ _ Hx) as [Fx Bx], (fe_of_in _ _ Hy) as [Fy By].
  rewrite asm_sub_eq, asm_subAssign_eq by (assumption || apply Fx || apply Fy).
  rewrite x_sub_eq by assumption.
  exact (conj (pb_sub x y u v Hx Hy) (pb_sub x y u v Hx Hy)).
Qed.
Lemma xb_double : forall x y u, fe_of x u -> length y = 6%nat ->
  fe_of (xcall asm_double junk c o x y) ((2 * u) mod bls_p) /\
  fe_of (xcall asm_doubleAssign junk c o x y) ((2 * u) mod bls_p).
Proof using All.
  intros x y u Hx Ly. destruct (fe_of_in _ _ Hx) as [Fx Bx].
  rewrite asm_double_eq, asm_doubleAssign_eq by (assumption || apply Fx).
  destruct (x_add_spec x x Fx Fx Bx Bx) as [F E]. replace (2 * u) with (u + u) by ring.
  exact (conj (add_gen x x u u Hx Hx _ F E) (add_gen x x u u Hx Hx _ F E)).
Qed.
(** arithmetic_decl.go:11-19: zero is copied, everything else goes to the
    assembly routine *)
Lemma xb_neg : forall x y u, fe_of x u -> length y = 6%nat ->
  fe_of (if fb_iszero x then x else xcall asm_neg junk c o x y) ((- u) mod bls_p).
Proof using All.
  intros x y u Hx Ly. destruct (fe_of_in _ _ Hx) as [Fx Bx].
  rewrite asm_neg_eq by (assumption || apply Fx).
  replace (if fb_iszero x then x else fst (subb bls_q x 0)) with (fb_neg x); [exact (pb_neg x u Hx)|].
  unfold fb_neg. destruct (fb_iszero x) eqn:Z0; [|reflexivity].
  rewrite fb_iszero_spec in Z0 by assumption. apply Z.eqb_eq in Z0.
  apply bval_inj; [rewrite (proj1 Fx); reflexivity|repeat constructor; discriminate|apply Fx|].
  rewrite Z0. reflexivity.
Qed.
End Amd.
