(** keccakf_amd64.s computes Keccak-f[1600]. *)
From Coq Require Import ZArith List Bool Lia.
From Verif Require Import Base Words ModelBlake ModelSha3Code ModelSha3 SpecSha3 ProofBlakeC ProofSha3F ModelKeccakAsm ModelKeccakX.
Import ListNotations.
Open Scope Z_scope.
Local Notation w64 := w64_ok.
Local Notation rot := Sha3Spec.rot.

(** ** Complement *)
Definition M64 : Z := 2 ^ 64 - 1.
Definition nt (x : Z) : Z := Z.lxor M64 x.
Lemma M_low n : 0 <= n < 64 -> Z.testbit M64 n = true.
Proof. intros H. change M64 with (Z.ones 64). apply Z.ones_spec_low. exact H. Qed.
Lemma M_high n : 64 <= n -> Z.testbit M64 n = false.
Proof. intros H. change M64 with (Z.ones 64). apply Z.ones_spec_high. lia. Qed.
Lemma nt_spec x n : Z.testbit (nt x) n = xorb (Z.testbit M64 n) (Z.testbit x n). Proof. apply Z.lxor_spec. Qed.
Lemma nt_xl x y : Z.lxor (nt x) y = nt (Z.lxor x y). Proof. unfold nt. now rewrite Z.lxor_assoc. Qed.
Lemma nt_xr x y : Z.lxor x (nt y) = nt (Z.lxor x y). Proof. rewrite Z.lxor_comm, nt_xl. now rewrite (Z.lxor_comm y x). Qed.
Lemma nt_nt x : nt (nt x) = x. Proof. unfold nt. now rewrite <- Z.lxor_assoc, Z.lxor_nilpotent, Z.lxor_0_l. Qed.
Lemma M_w64 : w64 M64. Proof. unfold w64_ok, M64. lia. Qed.
Lemma nt_w64 x : w64 x -> w64 (nt x). Proof. intros H. apply xor_w64; [exact M_w64|exact H]. Qed.
Lemma not_nt x : w64 x -> 2 ^ 64 - 1 - x = nt x.
Proof.
  intros Hc. change (2 ^ 64 - 1) with (Z.ones 64).
  rewrite Z.sub_nocarry_ldiff.
  - apply Z.bits_inj'. intros n Hn. rewrite Z.ldiff_spec, nt_spec. change M64 with (Z.ones 64).
    destruct (Z.lt_ge_cases n 64) as [L|L].
    + rewrite Z.ones_spec_low by lia. destruct (Z.testbit x n); reflexivity.
    + rewrite Z.ones_spec_high by lia. rewrite (testbit_high x 64) by (try exact Hc; lia). reflexivity.
  - apply Z.bits_inj'. intros m Hm. rewrite Z.ldiff_spec, Z.bits_0. destruct (Z.lt_ge_cases m 64) as [Lm|Lm].
    + rewrite Z.ones_spec_low by lia. apply andb_false_r.
    + rewrite (testbit_high x 64) by (try exact Hc; lia). reflexivity.
Qed.
Lemma rot_val x k : (0 < k < 64)%nat -> w64 x -> rot x k = (x * 2 ^ Z.of_nat k) mod 2 ^ 64 + x / 2 ^ (64 - Z.of_nat k).
Proof. reflexivity. Qed.
Lemma rot_spec x k n : (0 < k < 64)%nat -> w64 x -> 0 <= n < 64 ->
  Z.testbit (rot x k) n = Z.testbit x (if n <? Z.of_nat k then n + 64 - Z.of_nat k else n - Z.of_nat k).
Proof.
  intros Hk Hx Hn. rewrite <- rol_eq by assumption. unfold rol_code, u64. rewrite Z.lor_spec, Z.shiftr_spec by lia.
  rewrite Z.mod_pow2_bits_low by lia. rewrite Z.shiftl_spec by lia. destruct (Z.ltb_spec n (Z.of_nat k)) as [L|L].
  - rewrite Z.testbit_neg_r by lia. cbn [orb]. f_equal. lia.
  - rewrite (testbit_high x 64 (n + (64 - Z.of_nat k))) by (try exact Hx; lia). apply orb_false_r.
Qed.
Lemma w64_ext x y : w64 x -> w64 y -> (forall n, 0 <= n < 64 -> Z.testbit x n = Z.testbit y n) -> x = y.
Proof.
  intros Hx Hy H. apply Z.bits_inj'. intros n Hn. destruct (Z.lt_ge_cases n 64) as [L|L]; [apply H; lia|].
  rewrite (testbit_high x 64), (testbit_high y 64) by (try assumption; lia). reflexivity.
Qed.
Lemma rot_nt x k : (0 < k < 64)%nat -> w64 x -> rot (nt x) k = nt (rot x k).
Proof.
  intros Hk Hx. apply w64_ext; [apply rot_w64; [exact Hk|now apply nt_w64]|apply nt_w64; now apply rot_w64|].
  intros n Hn. rewrite rot_spec, !nt_spec, rot_spec by (try assumption; now apply nt_w64).
  rewrite !M_low; [reflexivity|lia|]. destruct (Z.ltb_spec n (Z.of_nat k)); lia.
Qed.

(** ** The machine with the operations of the specification *)
Definition sstep (m : list Z) (i : kins) : list Z :=
  match i with
  | MOVQ s d => upd m (kix d) (kget m s)
  | XORQ s d => upd m (kix d) (Z.lxor (vget m (kix d)) (kget m s))
  | ANDQ s d => upd m (kix d) (Z.land (vget m (kix d)) (kget m s))
  | ORQ s d => upd m (kix d) (Z.lor (vget m (kix d)) (kget m s))
  | ROLQ k d => upd m (kix d) (rot (vget m (kix d)) k)
  | NOTQ d => upd m (kix d) (nt (vget m (kix d)))
  end.
Definition scall (code : list kins) (m : list Z) : list Z := fold_left sstep code m.
Definition src_ok (s : ksrc) : bool := match s with K z => (0 <=? z) && (z <? 2 ^ 64) | _ => true end.
Definition kins_ok (i : kins) : bool :=
  match i with
  | ROLQ k _ => (Nat.ltb 0 k && Nat.ltb k 64)%bool
  | MOVQ s _ | XORQ s _ | ANDQ s _ | ORQ s _ => src_ok s
  | NOTQ _ => true
  end.
Lemma kget_w64 m s : src_ok s = true -> all64 m -> w64 (kget m s).
Proof.
  intros H V. destruct s; [now apply vget_w64|]. cbn [src_ok] in H. apply andb_true_iff in H. destruct H as [A B].
  apply Z.leb_le in A. apply Z.ltb_lt in B. split; assumption.
Qed.
Lemma kstep_sstep m i : kins_ok i = true -> all64 m -> kstep m i = sstep m i /\ all64 (sstep m i).
Proof.
  intros H V. destruct i; cbn [kins_ok kstep sstep] in *; try (pose proof (kget_w64 m s H V) as S).
  - split; [reflexivity|]. now apply upd_all.
  - split; [reflexivity|]. apply upd_all; [exact V|]. apply xor_w64; [now apply vget_w64|exact S].
  - split; [reflexivity|]. apply upd_all; [exact V|]. apply (land_bound 64); [lia| |exact S]. apply vget_w64. exact V.
  - split; [reflexivity|]. apply upd_all; [exact V|]. apply (lor_bound 64); [lia| |exact S]. apply vget_w64. exact V.
  - apply andb_true_iff in H. destruct H as [A B]. apply Nat.ltb_lt in A, B. rewrite rol_eq by (try lia; now apply vget_w64).
    split; [reflexivity|]. apply upd_all; [exact V|]. apply rot_w64; [lia|now apply vget_w64].
  - rewrite not_nt by now apply vget_w64. split; [reflexivity|]. apply upd_all; [exact V|]. apply nt_w64. now apply vget_w64.
Qed.
Lemma kcall_scall code : forallb kins_ok code = true -> forall m, all64 m -> kcall code m = scall code m /\ all64 (scall code m).
Proof.
  induction code as [|c code IH]; intros Hc m Hm; [split; [reflexivity|exact Hm]|].
  cbn [forallb] in Hc. apply andb_true_iff in Hc. destruct Hc as [C1 C2].
  destruct (kstep_sstep m c C1 Hm) as [E V]. unfold kcall, scall. cbn [fold_left]. rewrite E. apply IH; assumption.
Qed.
Lemma scall_app a b m : scall (a ++ b) m = scall b (scall a m). Proof. apply fold_left_app. Qed.

(** ** One round *)
Definition X5 (w : list Z) (i : nat) : Z :=
  Z.lxor (Z.lxor (Z.lxor (Z.lxor (vget w i) (vget w (i + 5))) (vget w (i + 10))) (vget w (i + 15))) (vget w (i + 20)).
Definition regs_for (w : list Z) (regs : list Z) : Prop :=
  length regs = 14%nat /\ vget regs 4 = X5 w 0 /\ vget regs 5 = X5 w 1 /\ vget regs 13 = X5 w 4 /\ vget regs 3 = vget w 22 /\ vget regs 6 = vget w 23.
Definition accs (i o : nat -> kloc) (rc : Z) : list kins :=
  mKeccakRound i o rc [MOVQ (W R12) BP] [XORQ (W AX) SI] [XORQ (W AX) BP] [XORQ (W R10) R15] [XORQ (W AX) SI] [XORQ (W AX) BP] [XORQ (W R10) R15] [XORQ (W AX) SI] [XORQ (W AX) BP] [XORQ (W R11) R15] [XORQ (W R9) R15] [XORQ (W BX) SI] [XORQ (W CX) BP].
Definition last (i o : nat -> kloc) (rc : Z) : list kins := mKeccakRound i o rc [] [] [] [] [] [] [] [] [] [] [] [] [].
(** what the round writes *)
Definition canon (w : list Z) : list Z := [0; 0; 0; vget w 22; X5 w 0; X5 w 1; vget w 23; 0; 0; 0; 0; 0; 0; X5 w 4].
Definition outw (rc : Z) (w : list Z) : list Z := skipn 39 (scall (last St Sk rc) (canon w ++ w ++ repeat 0 25)).

Ltac lists l := match goal with
  | H : length l = 14%nat |- _ => do 14 (destruct l as [|? l]; [discriminate H|]); destruct l; [|discriminate H]; clear H
  | H : length l = 25%nat |- _ => do 25 (destruct l as [|? l]; [discriminate H|]); destruct l; [|discriminate H]; clear H end.
Lemma round_fwd rc regs w j : regs_for w regs -> length w = 25%nat -> length j = 25%nat ->
  exists regs', regs_for (outw rc w) regs' /\ scall (accs St Sk rc) (regs ++ w ++ j) = regs' ++ w ++ outw rc w.
Proof.
  intros (L & A & B & C & D & E) Lw Lj. exists (firstn 14 (scall (accs St Sk rc) (regs ++ w ++ j))).
  lists regs. lists w. lists j. unfold vget in A, B, C, D, E. cbn [nth] in A, B, C, D, E.
  rewrite A, B, C, D, E. split; [|lazy -[Z.lxor Z.land Z.lor rot nt]; reflexivity].
  unfold regs_for. refine (conj _ (conj _ (conj _ (conj _ (conj _ _))))); lazy -[Z.lxor Z.land Z.lor rot nt]; reflexivity.
Qed.
Lemma round_bwd rc regs w j : regs_for w regs -> length w = 25%nat -> length j = 25%nat ->
  exists regs', regs_for (outw rc w) regs' /\ scall (accs Sk St rc) (regs ++ j ++ w) = regs' ++ outw rc w ++ w.
Proof.
  intros (L & A & B & C & D & E) Lw Lj. exists (firstn 14 (scall (accs Sk St rc) (regs ++ j ++ w))).
  lists regs. lists w. lists j. unfold vget in A, B, C, D, E. cbn [nth] in A, B, C, D, E.
  rewrite A, B, C, D, E. split; [|lazy -[Z.lxor Z.land Z.lor rot nt]; reflexivity].
  unfold regs_for. refine (conj _ (conj _ (conj _ (conj _ (conj _ _))))); lazy -[Z.lxor Z.land Z.lor rot nt]; reflexivity.
Qed.
Lemma round_last rc regs w j : regs_for w regs -> length w = 25%nat -> length j = 25%nat ->
  exists regs', length regs' = 14%nat /\ scall (last Sk St rc) (regs ++ j ++ w) = regs' ++ outw rc w ++ w.
Proof.
  intros (L & A & B & C & D & E) Lw Lj. exists (firstn 14 (scall (last Sk St rc) (regs ++ j ++ w))).
  lists regs. lists w. lists j. unfold vget in A, B, C, D, E. cbn [nth] in A, B, C, D, E.
  rewrite A, B, C, D, E. split; lazy -[Z.lxor Z.land Z.lor rot nt]; reflexivity.
Qed.

(** ** The round is the round of FIPS 202 on the state with six lanes complemented *)
Definition flips : list nat := [1; 2; 8; 12; 17; 20]%nat.
Definition flip (A : list Z) : list Z := fold_left (fun m i => upd m i (nt (vget m i))) flips A.
Ltac xorall := apply Z.bits_inj'; intros n Hn; rewrite ?nt_spec, ?Z.lxor_spec, ?nt_spec, ?Z.lxor_spec;
  repeat match goal with |- context [Z.testbit ?x n] => is_var x; destruct (Z.testbit x n) end;
  destruct (Z.testbit M64 n); reflexivity.
Definition ci (w : list Z) : Z := Z.lxor (Z.lxor (vget w 2) (vget w 12)) (Z.lxor (Z.lxor (vget w 22) (vget w 7)) (vget w 17)).
Definition co (w : list Z) : Z := Z.lxor (Z.lxor (vget w 3) (vget w 13)) (Z.lxor (Z.lxor (vget w 23) (vget w 8)) (vget w 18)).
Lemma cols A : length A = 25%nat ->
  X5 (flip A) 0 = nt (Sha3Spec.col A 0) /\ X5 (flip A) 1 = nt (Sha3Spec.col A 1) /\ ci (flip A) = nt (Sha3Spec.col A 2) /\
  co (flip A) = nt (Sha3Spec.col A 3) /\ X5 (flip A) 4 = Sha3Spec.col A 4.
Proof.
  intros L. lists A. refine (conj _ (conj _ (conj _ (conj _ _)))); lazy -[Z.lxor nt]; xorall.
Qed.
(** the five words added to the columns *)
Definition dd (A : list Z) (x : nat) : Z := Z.lxor (Sha3Spec.col A (x + 4)) (rot (Sha3Spec.col A (x + 1)) 1).
Lemma all64_nth A k : all64 A -> w64 (nth k A 0). Proof. exact (vget_w64 A k). Qed.
Lemma col_w64 A x : all64 A -> w64 (Sha3Spec.col A x).
Proof. intros V. unfold Sha3Spec.col, Sha3Spec.lane. repeat apply xor_w64; now apply all64_nth. Qed.
Lemma dd_w64 A x : all64 A -> w64 (dd A x).
Proof. intros V. apply xor_w64; [now apply col_w64|]. apply rot_w64; [lia|now apply col_w64]. Qed.
Lemma dds A : length A = 25%nat -> all64 A -> let w := flip A in
  Z.lxor (rot (X5 w 1) 1) (X5 w 4) = nt (dd A 0) /\ Z.lxor (rot (ci w) 1) (X5 w 0) = dd A 1 /\ Z.lxor (rot (co w) 1) (X5 w 1) = dd A 2 /\
  Z.lxor (rot (X5 w 4) 1) (ci w) = nt (dd A 3) /\ Z.lxor (rot (X5 w 0) 1) (co w) = dd A 4.
Proof.
  intros L V w. destruct (cols A L) as (E0 & E1 & E2 & E3 & E4). fold w in E0, E1, E2, E3, E4. rewrite E0, E1, E2, E3, E4. unfold dd.
  rewrite !rot_nt by (try lia; now apply col_w64). rewrite ?nt_xl, ?nt_xr, ?nt_nt.
  rewrite !(Z.lxor_comm (rot _ _)). cbn [Nat.add]. lists A. repeat split; try reflexivity; lazy -[Z.lxor rot nt]; reflexivity.
Qed.
(** the round with the five words given *)
Definition theta_d (d : nat -> Z) (A : list Z) : list Z := Sha3Spec.state_of (fun x y => Z.lxor (Sha3Spec.lane A x y) (d x)).
Definition outd (rc : Z) (d : nat -> Z) (w : list Z) : list Z :=
  skipn 39 (scall (skipn 27 (last St Sk rc)) ([0; d 0%nat; d 1%nat; d 2%nat; 0; 0; d 3%nat; d 4%nat; vget w 0; vget w 6; 0; 0; 0; 0] ++ w ++ repeat 0 25)).
Lemma outw_outd rc w : length w = 25%nat ->
  outw rc w = outd rc (fun x => match x with
    | 0 => Z.lxor (rot (X5 w 1) 1) (X5 w 4) | 1 => Z.lxor (rot (ci w) 1) (X5 w 0) | 2 => Z.lxor (rot (co w) 1) (X5 w 1)
    | 3 => Z.lxor (rot (X5 w 4) 1) (ci w) | _ => Z.lxor (rot (X5 w 0) 1) (co w) end%nat) w.
Proof. intros L. lists w. lazy -[Z.lxor Z.land Z.lor rot nt]. reflexivity. Qed.
Ltac ww := repeat first [assumption | apply xor_w64 | apply rot_w64; [lia|]].
Ltac xlane := apply Z.bits_inj'; let n := fresh "n" in let Hn := fresh in intros n Hn;
  repeat first [rewrite nt_spec | rewrite Z.lxor_spec | rewrite Z.land_spec | rewrite Z.lor_spec];
  destruct (Z.lt_ge_cases n 64) as [Lx|Lx];
  [rewrite (M_low n (conj Hn Lx)); repeat match goal with |- context [Z.testbit ?x n] => destruct (Z.testbit x n) end; reflexivity
  |rewrite (M_high n Lx); repeat match goal with |- context [Z.testbit ?x n] => rewrite (testbit_high x 64 n) by (try assumption; lia) end; reflexivity].
Lemma outd_ok rc d A : w64 rc -> length A = 25%nat -> all64 A -> (forall x, w64 (d x)) ->
  outd rc (fun x => match x with 0 => nt (d 0) | 1 => d 1 | 2 => d 2 | 3 => nt (d 3) | _ => d 4 end%nat) (flip A) =
  flip (Sha3Spec.state_of (fun x y => let B := Sha3Spec.chi (Sha3Spec.pi (Sha3Spec.rho (theta_d d A))) in
    if (Nat.eqb x 0 && Nat.eqb y 0)%bool then Z.lxor (Sha3Spec.lane B x y) rc else Sha3Spec.lane B x y)).
Proof.
  intros Hr L V Hd.
  pose proof (Hd 0%nat) as H0. pose proof (Hd 1%nat) as H1. pose proof (Hd 2%nat) as H2. pose proof (Hd 3%nat) as H3. pose proof (Hd 4%nat) as H4.
  lazy beta delta [outd theta_d]. cbv beta iota.
  lists A.
  unfold all64 in V.
  repeat match goal with H : Forall _ (_ :: _) |- _ => let a := fresh "V" in let b := fresh in inversion H as [|? ? a b]; subst; clear H; rename b into H end.
  lazy -[Z.lxor Z.land Z.lor rot nt Z.sub Z.pow].
  generalize dependent (d 0%nat). generalize dependent (d 1%nat). generalize dependent (d 2%nat). generalize dependent (d 3%nat). generalize dependent (d 4%nat).
  intros d4 H4 d3 H3 d2 H2 d1 H1 d0 H0.
  rewrite ?nt_xl, ?nt_xr, ?nt_nt. rewrite !rot_nt by (try lia; ww). rewrite ?nt_nt.
  rewrite !not_nt by ww.
  assert (W0 : w64 (Z.lxor z d0)) by ww.
  generalize dependent (Z.lxor z d0). intros b0 W0.
  repeat match goal with |- context [rot ?x ?k] =>
    let H := fresh "W" in assert (H : w64 (rot x k)) by ww; let b := fresh "b" in generalize dependent (rot x k); intros b H end.
  repeat (apply (f_equal2 (@cons Z)); [xlane|]). reflexivity.
Qed.
Lemma state_ext f g : (forall x y, (x < 5)%nat -> (y < 5)%nat -> f x y = g x y) -> Sha3Spec.state_of f = Sha3Spec.state_of g.
Proof. intros H. unfold Sha3Spec.state_of. cbn [seq map concat app]. rewrite !H by lia. reflexivity. Qed.
Lemma theta_dd A : length A = 25%nat -> theta_d (dd A) A = Sha3Spec.theta A.
Proof. intros L. reflexivity. Qed.
Lemma RC_w64 i : (i < 24)%nat -> w64 (Sha3Spec.RC i).
Proof. intros H. rewrite <- rc_eq by exact H. apply (vget_w64 keccak_rc). exact rc_all. Qed.
Lemma outd_ext rc d d' w : (forall x, (x < 5)%nat -> d x = d' x) -> outd rc d w = outd rc d' w.
Proof. intros H. unfold outd. rewrite !H by lia. reflexivity. Qed.
Lemma round_eq A i : length A = 25%nat -> all64 A -> (i < 24)%nat -> outw (Sha3Spec.RC i) (flip A) = flip (Sha3Spec.Rnd A i).
Proof.
  intros L V Hi. rewrite outw_outd by (lists A; reflexivity).
  destruct (dds A L V) as (E0 & E1 & E2 & E3 & E4). cbv zeta in E0, E1, E2, E3, E4.
  rewrite (outd_ext _ _ (fun x => match x with 0 => nt (dd A 0) | 1 => dd A 1 | 2 => dd A 2 | 3 => nt (dd A 3) | _ => dd A 4 end%nat)).
  2:{ intros x Hx. do 5 (destruct x as [|x]; [cbv beta iota; assumption|]). lia. }
  rewrite (outd_ok _ (dd A) A (RC_w64 i Hi) L V (fun x => dd_w64 A x V)). reflexivity.
Qed.
Lemma flip_len A : length A = 25%nat -> length (flip A) = 25%nat. Proof. intros L. lists A. reflexivity. Qed.
Lemma flip_flip A : length A = 25%nat -> flip (flip A) = A.
Proof. intros L. lists A. lazy -[nt]. rewrite !nt_nt. reflexivity. Qed.
Lemma flip_all A : all64 A -> all64 (flip A).
Proof.
  unfold flip. generalize flips as l. intros l. revert A. induction l as [|i l IH]; intros A V; [exact V|].
  cbn [fold_left]. apply IH. apply upd_all; [exact V|]. now apply nt_w64, vget_w64.
Qed.
Lemma ok_round i o rc : w64 rc -> forallb kins_ok (last i o rc) = true.
Proof.
  intros [A B]. assert (E : src_ok (K rc) = true) by (cbn [src_ok]; apply andb_true_iff; split; [now apply Z.leb_le|now apply Z.ltb_lt]).
  assert (X : forall l1 l2, forallb kins_ok (l1 ++ l2) = (forallb kins_ok l1 && forallb kins_ok l2)%bool) by (intros; apply forallb_app).
  cbn [src_ok] in E. cbn [last mKeccakRound app forallb kins_ok src_ok]. rewrite E. reflexivity.
Qed.
Lemma rnd_all A i : length A = 25%nat -> all64 A -> (i < 24)%nat -> all64 (Sha3Spec.Rnd A i).
Proof.
  intros L V Hi. rewrite <- (flip_flip (Sha3Spec.Rnd A i)) by apply Rnd_length. apply flip_all. rewrite <- round_eq by assumption.
  unfold outw. apply Forall_forall. intros x Hx.
  pose proof (kcall_scall _ (ok_round St Sk _ (RC_w64 i Hi)) (canon (flip A) ++ flip A ++ repeat 0 25)) as [_ W].
  { pose proof (flip_all A V) as F. apply Forall_app. split; [|apply Forall_app; split; [exact F|]].
    - pose proof (fun k => vget_w64 (flip A) k F) as G. assert (Z0 : w64 0) by (split; lia).
      unfold canon, X5. repeat (apply Forall_cons; [first [exact Z0|apply G|repeat apply xor_w64; apply G]|]). apply Forall_nil.
    - apply Forall_forall. intros y Hy. apply repeat_spec in Hy. subst y. split; lia. }
  apply (proj1 (Forall_forall _ _) W). revert Hx. generalize (scall (last St Sk (Sha3Spec.RC i)) (canon (flip A) ++ flip A ++ repeat 0 25)). intros l.
  rewrite <- (firstn_skipn 39 l) at 2. intros Hx. apply in_or_app. now right.
Qed.
(** Two rounds *)
Lemma two_rounds A i regs j : length A = 25%nat -> all64 A -> (S i < 24)%nat -> regs_for (flip A) regs -> length j = 25%nat ->
  let A1 := Sha3Spec.Rnd A i in let A2 := Sha3Spec.Rnd A1 (S i) in
  exists regs', regs_for (flip A2) regs' /\
  scall (accs St Sk (Sha3Spec.RC i) ++ accs Sk St (Sha3Spec.RC (S i))) (regs ++ flip A ++ j) = regs' ++ flip A2 ++ flip A1.
Proof.
  intros L V Hi HR Lj A1 A2.
  destruct (round_fwd (Sha3Spec.RC i) regs (flip A) j HR (flip_len A L) Lj) as (r1 & R1 & E1). rewrite round_eq in R1, E1 by (assumption || lia). fold A1 in R1, E1.
  assert (V1 : all64 A1) by (apply rnd_all; assumption || lia).
  destruct (round_bwd (Sha3Spec.RC (S i)) r1 (flip A1) (flip A) R1 (flip_len A1 (Rnd_length _ _)) (flip_len A L)) as (r2 & R2 & E2).
  rewrite round_eq in R2, E2 by (try apply Rnd_length; assumption || lia). fold A2 in R2, E2.
  exists r2. split; [exact R2|]. rewrite scall_app, E1. exact E2.
Qed.
Definition pairs (n : nat) : list (list kins) :=
  concat (map (fun k => [accs St Sk (Sha3Spec.RC (2 * k)); accs Sk St (Sha3Spec.RC (S (2 * k)))]) (seq 0 n)).
Lemma pairs_ok n : (n <= 12)%nat -> forall A regs j, length A = 25%nat -> all64 A -> regs_for (flip A) regs -> length j = 25%nat ->
  let A' := fold_left Sha3Spec.Rnd (seq 0 (2 * n)) A in
  length A' = 25%nat /\ all64 A' /\ exists regs' j', regs_for (flip A') regs' /\ length j' = 25%nat /\
  scall (concat (pairs n)) (regs ++ flip A ++ j) = regs' ++ flip A' ++ j'.
Proof.
  induction n as [|n IH]; intros Hn A regs j L V HR Lj.
  - cbn [Nat.mul seq fold_left]. split; [exact L|]. split; [exact V|]. exists regs, j. split; [exact HR|]. split; [exact Lj|reflexivity].
  - destruct (IH ltac:(lia) A regs j L V HR Lj) as (L1 & V1 & r1 & j1 & R1 & J1 & E1).
    set (A1 := fold_left Sha3Spec.Rnd (seq 0 (2 * n)) A) in *.
    destruct (two_rounds A1 (2 * n) r1 j1 L1 V1 ltac:(lia) R1 J1) as (r2 & R2 & E2). cbv zeta in R2, E2.
    assert (EA : fold_left Sha3Spec.Rnd (seq 0 (2 * S n)) A = Sha3Spec.Rnd (Sha3Spec.Rnd A1 (2 * n)) (S (2 * n))).
    { replace (2 * S n)%nat with (2 * n + 2)%nat by lia. rewrite seq_app, fold_left_app. fold A1. reflexivity. }
    cbv zeta. rewrite EA. split; [apply Rnd_length|]. split.
    { apply rnd_all; [apply Rnd_length| |lia]. apply rnd_all; [assumption|assumption|lia]. }
    exists r2, (flip (Sha3Spec.Rnd A1 (2 * n))). split; [exact R2|]. split; [apply flip_len, Rnd_length|].
    unfold pairs. rewrite seq_S, map_app, !concat_app. fold (pairs n). cbn [map concat Nat.add]. rewrite !app_nil_r.
    rewrite scall_app, E1. exact E2.
Qed.
Lemma rounds_shape : keccak_rounds = pairs 11 ++ [accs St Sk (Sha3Spec.RC 22); last Sk St (Sha3Spec.RC 23)].
Proof. vm_compute. reflexivity. Qed.
Lemma enter_ok regs a j : length regs = 14%nat -> length a = 25%nat -> exists regs', regs_for (flip a) regs' /\
  scall keccak_enter (regs ++ a ++ j) = regs' ++ flip a ++ j.
Proof.
  intros Lr La. exists (firstn 14 (scall keccak_enter (regs ++ a ++ j))). lists regs. lists a.
  split; [unfold regs_for; refine (conj _ (conj _ (conj _ (conj _ (conj _ _))))); lazy -[Z.lxor nt]; reflexivity|]. lazy -[Z.lxor nt]. reflexivity.
Qed.
Lemma leave_ok regs a j : length regs = 14%nat -> length a = 25%nat -> scall keccak_leave (regs ++ a ++ j) = regs ++ flip a ++ j.
Proof. intros Lr La. lists regs. lists a. lazy -[Z.lxor nt]. reflexivity. Qed.
Lemma asm_ok : forallb kins_ok keccak_asm = true. Proof. vm_compute. reflexivity. Qed.
Theorem amd64_ok regs frame A : length regs = 14%nat -> all64 regs -> length frame = 25%nat -> all64 frame -> length A = 25%nat -> all64 A ->
  keccakF1600_amd64 regs frame A = Sha3Spec.keccak_f A.
Proof.
  intros Lr Vr Lf Vf L V. unfold keccakF1600_amd64.
  rewrite (proj1 (kcall_scall _ asm_ok (regs ++ A ++ frame) ltac:(apply Forall_app; split; [exact Vr|apply Forall_app; split; assumption]))).
  unfold keccak_asm. rewrite rounds_shape, concat_app, !scall_app.
  destruct (enter_ok regs A frame Lr L) as (r0 & R0 & E0). rewrite E0.
  destruct (pairs_ok 11 ltac:(lia) A r0 frame L V R0 Lf) as (L1 & V1 & r1 & j1 & R1 & J1 & E1). cbv zeta in *. rewrite E1.
  set (A1 := fold_left Sha3Spec.Rnd (seq 0 (2 * 11)) A) in *.
  cbn [concat]. rewrite app_nil_r, scall_app.
  destruct (round_fwd (Sha3Spec.RC 22) r1 (flip A1) j1 R1 (flip_len A1 L1) J1) as (r2 & R2 & E2). rewrite round_eq in R2, E2 by (assumption || lia). rewrite E2.
  destruct (round_last (Sha3Spec.RC 23) r2 (flip (Sha3Spec.Rnd A1 22)) (flip A1) R2 (flip_len _ (Rnd_length _ _)) (flip_len A1 L1)) as (r3 & R3 & E3).
  rewrite round_eq in E3 by (try apply Rnd_length; try apply rnd_all; assumption || lia). rewrite E3.
  rewrite leave_ok by (try exact R3; apply flip_len, Rnd_length). rewrite flip_flip by apply Rnd_length.
  rewrite skipn_app, R3, (skipn_all2 r3) by lia. rewrite Nat.sub_diag. cbn [app skipn].
  rewrite firstn_app, Rnd_length, Nat.sub_diag, firstn_O, app_nil_r, firstn_all2 by (rewrite Rnd_length; lia).
  unfold Sha3Spec.keccak_f. change (seq 0 24) with (seq 0 (2 * 11) ++ [22%nat; 23%nat]). rewrite fold_left_app. reflexivity.
Qed.
