(** Properties C55, C72-C74: the base field of BLS12-381, portable code and
    amd64 assembly. *)
From Coq Require Import ZArith List Bool Lia.
From Verif Require Import ModelBlsF SpecBls ProofBlsF ModelX86 ModelBlsAsm ProofBlsAsm ProofX86 ProofBlsE.
Import ListNotations.
Local Open Scope Z_scope.

(** Montgomery forms of concrete numbers, for the examples. *)
Fixpoint limbs (n : nat) (v : Z) : list Z :=
  match n with O => [] | S k => v mod B64 :: limbs k (v / B64) end.
Definition mont (v : Z) : list Z := limbs 6 ((v * bls_R) mod bls_p).
Definition fe_check (x : list Z) (v : Z) : bool :=
  Nat.eqb (length x) 6 && forallb (fun w => (0 <=? w) && (w <? B64)) x && (0 <=? v) && (v <? bls_p) &&
  (bval x =? (v * bls_R) mod bls_p).
Lemma fe_check_ok : forall x v, fe_check x v = true -> fe_of x v.
Proof.
  intros x v H. unfold fe_check in H. repeat (apply andb_true_iff in H; destruct H as [H ?]).
  split; [apply Nat.eqb_eq, H|]. split; [|split; [lia|apply Z.eqb_eq; assumption]].
  apply Forall_forall. intros w Hw. rewrite forallb_forall in H3. specialize (H3 w Hw).
  apply andb_true_iff in H3. destruct H3. lia.
Qed.
Example mont_7 : fe_of (mont 7) 7.
Proof. apply fe_check_ok. vm_compute. reflexivity. Qed.
Example mont_m5 : fe_of (mont (bls_p - 5)) (bls_p - 5).
Proof. apply fe_check_ok. vm_compute. reflexivity. Qed.
(** ** C55: the portable arithmetic is exact modulo p *)
Theorem C55_portable_field : forall x y u v, fe_of x u -> fe_of y v ->
  fe_of (fb_add x y) ((u + v) mod bls_p) /\
  fe_of (fb_sub x y) ((u - v) mod bls_p) /\
  fe_of (fb_neg x) ((- u) mod bls_p) /\
  fe_of (fb_double x) ((2 * u) mod bls_p) /\
  fe_of (fb_mul x y) ((u * v) mod bls_p).
Proof.
  intros x y u v Hx Hy.
  exact (conj (pb_add x y u v Hx Hy) (conj (pb_sub x y u v Hx Hy) (conj (pb_neg x u Hx)
    (conj (pb_double x u Hx) (pb_mul x y u v Hx Hy))))).
Qed.
Print Assumptions C55_portable_field.
Example C55_example : fe_of (fb_mul (mont 7) (mont (bls_p - 5))) (bls_p - 35).
Proof.
  pose proof (proj2 (proj2 (proj2 (proj2 (C55_portable_field _ _ _ _ mont_7 mont_m5))))) as H.
  replace ((7 * (bls_p - 5)) mod bls_p) with (bls_p - 35) in H by (vm_compute; reflexivity).
  exact H.
Qed.

(** Montgomery forms are the only reduced six-word lists, and determine the
    number: so the statements above say everything about reduced operands. *)
Theorem C55_forms : forall x, length x = 6%nat -> Forall (fun w => 0 <= w < B64) x -> bval x < bls_p ->
  exists v, fe_of x v /\ forall v', fe_of x v' -> v' = v.
Proof.
  intros x L W B. exists ((bval x * bls_Ri) mod bls_p).
  assert (H := fe_of_ex x (conj L W) B). split; [exact H|]. intros v' H'. exact (fe_of_inj x _ _ H' H).
Qed.
Print Assumptions C55_forms.

(** ** C72: squaring *)
(** Full property: forall x u, fe_of x u -> fe_of (fb_square x) ((u * u) mod bls_p).
    The portable squaring loses a carry. *)
Definition sq_bad : list Z := [2 ^ 64 - 2; 2 ^ 63 + 1; 0; 0; 0; 0].
Lemma fe_of_small : forall x, length x = 6%nat -> Forall (fun w => 0 <= w < B64) x -> bval x < bls_p ->
  fe_of x ((bval x * bls_Ri) mod bls_p).
Proof. intros x L W B. exact (fe_of_ex x (conj L W) B). Qed.
Theorem C72_portable_square_refuted : exists x u, fe_of x u /\ ~ fe_of (fb_square x) ((u * u) mod bls_p).
Proof.
  exists sq_bad, ((bval sq_bad * bls_Ri) mod bls_p).
  assert (H : fe_of sq_bad ((bval sq_bad * bls_Ri) mod bls_p)).
  { apply fe_of_small; [reflexivity|repeat constructor; discriminate|vm_compute; reflexivity]. }
  split; [exact H|]. intros S.
  pose proof (fe_of_eq _ _ _ S (pb_mul _ _ _ _ H H)) as E.
  revert E. vm_compute. discriminate.
Qed.
Print Assumptions C72_portable_square_refuted.

(** ** C73: amd64 *)
(** Full property: the assembly add, sub, neg, double and mul compute the
    operation modulo p for all reduced operands, whatever the registers, the
    stack and the flags hold on entry.  Proved for all but mul. *)
Theorem C73_amd64_linear_partial : forall junk c o x y u v, length junk = 17%nat -> fe_of x u -> fe_of y v ->
  fe_of (xcall asm_add junk c o x y) ((u + v) mod bls_p) /\
  fe_of (xcall asm_addAssign junk c o x y) ((u + v) mod bls_p) /\
  fe_of (xcall asm_sub junk c o x y) ((u - v) mod bls_p) /\
  fe_of (xcall asm_subAssign junk c o x y) ((u - v) mod bls_p) /\
  fe_of (xcall asm_double junk c o x y) ((2 * u) mod bls_p) /\
  fe_of (xcall asm_doubleAssign junk c o x y) ((2 * u) mod bls_p) /\
  fe_of (if fb_iszero x then x else xcall asm_neg junk c o x y) ((- u) mod bls_p).
Proof.
  intros junk c o x y u v J Hx Hy.
  pose proof (proj1 (proj1 (fe_of_in _ _ Hy))) as Ly.
  destruct (xb_add junk c o J x y u v Hx Hy) as [A1 A2], (xb_sub junk c o J x y u v Hx Hy) as [S1 S2],
    (xb_double junk c o J x y u Hx Ly) as [D1 D2].
  exact (conj A1 (conj A2 (conj S1 (conj S2 (conj D1 (conj D2 (xb_neg junk c o J x y u Hx Ly))))))).
Qed.
Print Assumptions C73_amd64_linear_partial.
Example C73_example : length (repeat 5 17) = 17%nat /\ fe_of (mont 7) 7 /\ fe_of (mont (bls_p - 5)) (bls_p - 5).
Proof. exact (conj eq_refl (conj mont_7 mont_m5)). Qed.

(** Every routine, multiplication included, is a function of its operands: what
    the registers, the stack and the flags hold on entry does not matter. *)
Definition asm_routines : list (list xins) :=
  [asm_addAssign; asm_add; asm_ladd; asm_laddAssign; asm_sub; asm_subAssign; asm_lsubAssign; asm_double;
   asm_doubleAssign; asm_ldouble; asm_neg; asm_mulNoADX; asm_mulAssignNoADX; asm_mulADX; asm_mulAssignADX].
Lemma asm_closed : forallb closed asm_routines = true.
Proof. vm_compute. reflexivity. Qed.
Theorem C73_amd64_deterministic : forall code, In code asm_routines ->
  forall a b junk junk' c c' o o', length a = 6%nat -> length b = 6%nat ->
  length junk = 17%nat -> length junk' = 17%nat ->
  xcall code junk c o a b = xcall code junk' c' o' a b.
Proof.
  intros code H. apply closed_call. pose proof asm_closed as A. rewrite forallb_forall in A. exact (A code H).
Qed.
Print Assumptions C73_amd64_deterministic.
Example C73_deterministic_example : In asm_mulADX asm_routines.
Proof. unfold asm_routines. cbn [In]. tauto. Qed.

Definition zjunk : list Z := repeat 0 17.
Lemma mul_refute : forall code a b, In code asm_routines ->
  length a = 6%nat -> Forall (fun w => 0 <= w < B64) a -> bval a < bls_p ->
  length b = 6%nat -> Forall (fun w => 0 <= w < B64) b -> bval b < bls_p ->
  xcall code zjunk 0 0 a b <> fb_mul a b ->
  exists x y u v, fe_of x u /\ fe_of y v /\
    forall junk c o, length junk = 17%nat -> ~ fe_of (xcall code junk c o x y) ((u * v) mod bls_p).
Proof.
  intros code a b Hc La Wa Ba Lb Wb Bb N.
  pose proof (fe_of_small a La Wa Ba) as Ha. pose proof (fe_of_small b Lb Wb Bb) as Hb.
  exists a, b, ((bval a * bls_Ri) mod bls_p), ((bval b * bls_Ri) mod bls_p).
  split; [exact Ha|]. split; [exact Hb|]. intros junk c o J H. apply N.
  rewrite (C73_amd64_deterministic code Hc a b zjunk junk 0 c 0 o La Lb eq_refl J).
  exact (fe_of_eq _ _ _ H (pb_mul _ _ _ _ Ha Hb)).
Qed.

(** The multiplication of the default amd64 build (ADX): a carry out of the
    overflow-flag chain is dropped in every reduction round. *)
Definition adx_a : list Z := [46; 0; 0; 0; 0; 1].
Definition adx_b : list Z := [1; 0xeb7f3815ffdbbceb; 0; 0; 0; 0].
Theorem C73_amd64_mulADX_refuted : exists x y u v, fe_of x u /\ fe_of y v /\
  forall junk c o, length junk = 17%nat ->
  ~ fe_of (xcall asm_mulADX junk c o x y) ((u * v) mod bls_p) /\
  ~ fe_of (xcall asm_mulAssignADX junk c o x y) ((u * v) mod bls_p).
Proof.
  destruct (mul_refute asm_mulADX adx_a adx_b) as (x & y & u & v & Hx & Hy & H);
    [unfold asm_routines; cbn [In]; tauto|reflexivity|repeat constructor; discriminate|vm_compute; reflexivity|
     reflexivity|repeat constructor; discriminate|vm_compute; reflexivity|vm_compute; discriminate|].
  exists x, y, u, v. split; [exact Hx|]. split; [exact Hy|]. intros junk c o J.
    exact (conj (H junk c o J) (H junk c o J)).
Qed.
Print Assumptions C73_amd64_mulADX_refuted.

(** The multiplication used without ADX: wrong when a Montgomery quotient digit
    is 1. *)
Definition noadx_a : list Z := [2 ^ 64 - 13402431016077863595; 0; 0; 0; 0; 0].
Definition noadx_b : list Z := [1; 0; 0; 0; 0; 0].
Theorem C73_amd64_mulNoADX_refuted : 
  (exists x y u v, fe_of x u /\ fe_of y v /\
    forall junk c o, length junk = 17%nat -> ~ fe_of (xcall asm_mulNoADX junk c o x y) ((u * v) mod bls_p)) /\
  (exists x y u v, fe_of x u /\ fe_of y v /\
    forall junk c o, length junk = 17%nat -> ~ fe_of (xcall asm_mulAssignNoADX junk c o x y) ((u * v) mod bls_p)).
Proof.
  split; [apply (mul_refute asm_mulNoADX noadx_a noadx_b)|apply (mul_refute asm_mulAssignNoADX noadx_a noadx_b)];
    [unfold asm_routines; cbn [In]; tauto|reflexivity|repeat constructor; discriminate|vm_compute; reflexivity|
     reflexivity|repeat constructor; discriminate|vm_compute; reflexivity|vm_compute; discriminate|
     unfold asm_routines; cbn [In]; tauto|reflexivity|repeat constructor; discriminate|vm_compute; reflexivity|
     reflexivity|repeat constructor; discriminate|vm_compute; reflexivity|vm_compute; discriminate].
Qed.
Print Assumptions C73_amd64_mulNoADX_refuted.

(** ** C74: stack frames *)
(** A routine keeps inside its frame when every 8-byte slot it names ends at or
    below the frame size its TEXT line declares. *)
Definition in_frame (code : list xins) (frame : Z) : Prop :=
  forall i n, In i code -> In n (ins_slots i) -> 8 * (Z.of_nat n + 1) <= frame.
Lemma in_frame_check : forall code frame,
  forallb (fun i => forallb (fun n => 8 * (Z.of_nat n + 1) <=? frame) (ins_slots i)) code = true -> in_frame code frame.
Proof.
  intros code frame H i n Hi Hn. rewrite forallb_forall in H. specialize (H i Hi).
  rewrite forallb_forall in H. specialize (H n Hn). apply Z.leb_le in H. exact H.
Qed.
Theorem C74_frames_partial :
  in_frame asm_addAssign asm_addAssign_frame /\ in_frame asm_add asm_add_frame /\
  in_frame asm_ladd asm_ladd_frame /\ in_frame asm_laddAssign asm_laddAssign_frame /\
  in_frame asm_sub asm_sub_frame /\ in_frame asm_subAssign asm_subAssign_frame /\
  in_frame asm_lsubAssign asm_lsubAssign_frame /\ in_frame asm_double asm_double_frame /\
  in_frame asm_doubleAssign asm_doubleAssign_frame /\ in_frame asm_ldouble asm_ldouble_frame /\
  in_frame asm_neg asm_neg_frame /\ in_frame asm_mulADX asm_mulADX_frame /\
  in_frame asm_mulAssignADX asm_mulAssignADX_frame.
Proof. repeat (split; [apply in_frame_check; vm_compute; reflexivity|]). apply in_frame_check; vm_compute; reflexivity. Qed.
Print Assumptions C74_frames_partial.
(** the NoADX multiplications write 16(SP) in a frame of 16 bytes *)
Lemma out_of_frame : forall code frame,
  forallb (fun i => forallb (fun n => 8 * (Z.of_nat n + 1) <=? frame) (ins_slots i)) code = false -> ~ in_frame code frame.
Proof.
  intros code frame H F. assert (T : forallb (fun i => forallb (fun n => 8 * (Z.of_nat n + 1) <=? frame) (ins_slots i)) code = true).
  { apply forallb_forall. intros i Hi. apply forallb_forall. intros n Hn. apply Z.leb_le, (F i n Hi Hn). }
  congruence.
Qed.
Theorem C74_frames_refuted :
  ~ in_frame asm_mulNoADX asm_mulNoADX_frame /\ ~ in_frame asm_mulAssignNoADX asm_mulAssignNoADX_frame.
Proof. split; apply out_of_frame; vm_compute; reflexivity. Qed.
Print Assumptions C74_frames_refuted.
