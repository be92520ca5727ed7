(** keccakF1600 (the Go version) is Keccak-f[1600]. *)
From Coq Require Import ZArith List Bool Lia.
From Verif Require Import Base Words ModelBlake ModelSha3Code ModelSha3 SpecSha3 ProofBlakeC.
Import ListNotations.
Open Scope Z_scope.

Local Notation w64 := w64_ok.
Definition all64 (v : list Z) : Prop := Forall w64 v.

(** The same assignments with the operations of the specification. *)
Definition andn (b c : Z) : Z := Z.land (2 ^ 64 - 1 - c) b.
Definition sexec (i : nat) (v : list Z) (c : kinstr) : list Z :=
  match c with
  | Xor5 x a b c d e =>
      upd v x (Z.lxor (Z.lxor (Z.lxor (Z.lxor (vget v a) (vget v b)) (vget v c)) (vget v d)) (vget v e))
  | XorRol1 x a b => upd v x (Z.lxor (vget v a) (Sha3Spec.rot (vget v b) 1))
  | Xor2 x a b => upd v x (Z.lxor (vget v a) (vget v b))
  | Rol x a k => upd v x (Sha3Spec.rot (vget v a) k)
  | Chi x a b c => upd v x (Z.lxor (vget v a) (andn (vget v b) (vget v c)))
  | ChiRc x a b c k => upd v x (Z.lxor (Z.lxor (vget v a) (andn (vget v b) (vget v c))) (Sha3Spec.RC (i + k)))
  end.
Definition srun (i : nat) (code : list kinstr) (v : list Z) : list Z := fold_left (sexec i) code v.

Lemma rol_eq x k : (0 < k < 64)%nat -> w64 x -> rol_code x k = Sha3Spec.rot x k.
Proof.
  intros Hk Hx. unfold rol_code, Sha3Spec.rot, u64.
  rewrite (lor_shift_add 64 x (Z.of_nat k) ltac:(lia) Hx). reflexivity.
Qed.
Lemma rot_w64 x k : (0 < k < 64)%nat -> w64 x -> w64 (Sha3Spec.rot x k).
Proof.
  intros Hk Hx. rewrite <- rol_eq by assumption. unfold rol_code.
  apply (lor_bound 64); [lia|apply u64_ok|]. rewrite Z.shiftr_div_pow2 by lia.
  assert (0 < 2 ^ (64 - Z.of_nat k)) by (apply Z.pow_pos_nonneg; lia). unfold w64_ok in Hx.
  split; [apply Z.div_pos; lia|]. apply Z.div_lt_upper_bound; nia.
Qed.
Lemma not_lnot c : 2 ^ 64 - 1 - c = Z.lnot c + 2 ^ 64.
Proof. unfold Z.lnot. lia. Qed.
Lemma andn_eq b c : w64 b -> w64 c -> Z.ldiff b c = andn b c.
Proof.
  intros Hb Hc. unfold andn. rewrite Z.ldiff_land, Z.land_comm. apply Z.bits_inj'. intros n Hn.
  rewrite !Z.land_spec. destruct (Z.lt_ge_cases n 64) as [L|L].
  - f_equal. rewrite Z.lnot_spec by exact Hn.
    assert (E : 2 ^ 64 - 1 - c = Z.ldiff (Z.ones 64) c).
    { change (2 ^ 64 - 1) with (Z.ones 64).
      apply Z.sub_nocarry_ldiff. apply Z.bits_inj'. intros m Hm. rewrite Z.ldiff_spec, Z.bits_0.
      destruct (Z.lt_ge_cases m 64) as [Lm|Lm].
      - rewrite Z.ones_spec_low by lia. apply andb_false_r.
      - rewrite (testbit_high c 64) by (try exact Hc; lia). reflexivity. }
    rewrite E, Z.ldiff_spec, Z.ones_spec_low by lia. destruct (Z.testbit c n); reflexivity.
  - rewrite (testbit_high b 64) by (try exact Hb; lia). now rewrite !andb_false_r.
Qed.
Lemma andn_w64 b c : w64 b -> w64 c -> w64 (andn b c).
Proof. intros Hb Hc. unfold andn. apply (land_bound 64); [lia|unfold w64_ok in Hc; lia|exact Hb]. Qed.
Lemma xor_w64 a b : w64 a -> w64 b -> w64 (Z.lxor a b).
Proof. apply (lxor_bound 64). lia. Qed.

Lemma rc_table : map Sha3Spec.RC (seq 0 24) = keccak_rc.
Proof. vm_compute. reflexivity. Qed.
Lemma rc_eq i : (i < 24)%nat -> nth i keccak_rc 0 = Sha3Spec.RC i.
Proof.
  intros H. rewrite <- rc_table. rewrite (nth_indep _ 0 (Sha3Spec.RC 0)) by (rewrite map_length, seq_length; exact H).
  rewrite map_nth. rewrite seq_nth by exact H. reflexivity.
Qed.
Lemma rc_all : all64 keccak_rc.
Proof.
  apply Forall_forall. intros x Hx.
  assert (T : forallb (fun x => (0 <=? x) && (x <? 2 ^ 64)) keccak_rc = true) by (vm_compute; reflexivity).
  rewrite forallb_forall in T. apply T in Hx. apply andb_true_iff in Hx. destruct Hx as [A B].
  apply Z.leb_le in A. apply Z.ltb_lt in B. split; assumption.
Qed.

Lemma vget_w64 v i : all64 v -> w64 (vget v i).
Proof.
  intros H. unfold vget. destruct (Nat.lt_ge_cases i (length v)) as [L|L].
  - apply (proj1 (Forall_forall _ _) H). now apply nth_In.
  - rewrite nth_overflow by lia. split; lia.
Qed.
Lemma upd_all v i x : all64 v -> w64 x -> all64 (upd v i x).
Proof.
  intros H. revert i. induction H as [|y v Hy Hv IH]; intros [|i] Hx; cbn [upd]; try constructor; auto. apply IH. exact Hx.
Qed.

Definition instr_ok (c : kinstr) : bool :=
  match c with Rol _ _ k => (Nat.ltb 0 k && Nat.ltb k 64)%bool | ChiRc _ _ _ _ k => Nat.ltb k 4 | _ => true end.
Lemma kexec_sexec i v c : (i + 4 <= 24)%nat -> instr_ok c = true -> all64 v -> kexec i v c = sexec i v c /\ all64 (sexec i v c).
Proof.
  intros Hi Hc Hv. pose proof (fun j => vget_w64 v j Hv) as G.
  destruct c; cbn [kexec sexec instr_ok] in *.
  - split; [reflexivity|]. apply upd_all; [exact Hv|]. repeat apply xor_w64; apply G.
  - rewrite rol_eq by (try lia; apply G). split; [reflexivity|]. apply upd_all; [exact Hv|]. apply xor_w64; [apply G|apply rot_w64; [lia|apply G]].
  - split; [reflexivity|]. apply upd_all; [exact Hv|]. apply xor_w64; apply G.
  - apply andb_true_iff in Hc. destruct Hc as [C1 C2]. apply Nat.ltb_lt in C1, C2.
    rewrite rol_eq by (try lia; apply G). split; [reflexivity|]. apply upd_all; [exact Hv|]. apply rot_w64; [lia|apply G].
  - rewrite andn_eq by apply G. split; [reflexivity|]. apply upd_all; [exact Hv|]. apply xor_w64; [apply G|apply andn_w64; apply G].
  - apply Nat.ltb_lt in Hc. rewrite andn_eq by apply G. rewrite rc_eq by lia. split; [reflexivity|]. apply upd_all; [exact Hv|].
    apply xor_w64; [apply xor_w64; [apply G|apply andn_w64; apply G]|]. rewrite <- rc_eq by lia. apply (vget_w64 keccak_rc). exact rc_all.
Qed.
Lemma krun_srun i code : (i + 4 <= 24)%nat -> forallb instr_ok code = true -> forall v, all64 v ->
  krun i code v = srun i code v /\ all64 (srun i code v).
Proof.
  intros Hi. induction code as [|c code IH]; intros Hc v Hv; [split; [reflexivity|exact Hv]|].
  cbn [forallb] in Hc. apply andb_true_iff in Hc. destruct Hc as [C1 C2].
  destruct (kexec_sexec i v c Hi C1 Hv) as [E V]. unfold krun, srun. cbn [fold_left]. rewrite E. apply IH; assumption.
Qed.

(** ** The four rounds of a turn *)
(** Where the code keeps lane j before round 0, 1, 2, 3 of a turn, and after it. *)
Definition loc (r : nat) : list nat :=
  match r with
  | 1 => [0; 6; 12; 18; 24; 10; 16; 22; 3; 9; 20; 1; 7; 13; 19; 5; 11; 17; 23; 4; 15; 21; 2; 8; 14]
  | 2 => [0; 16; 7; 23; 14; 20; 11; 2; 18; 9; 15; 6; 22; 13; 4; 10; 1; 17; 8; 24; 5; 21; 12; 3; 19]
  | 3 => [0; 11; 22; 8; 19; 15; 1; 12; 23; 9; 5; 16; 2; 13; 24; 20; 6; 17; 3; 14; 10; 21; 7; 18; 4]
  | _ => seq 0 25
  end%nat.
Definition place (l : list nat) (A : list Z) : list Z :=
  fold_left (fun m (p : nat * Z) => upd m (fst p) (snd p)) (combine l A) (repeat 0 25).
Definition code_of (r : nat) : list kinstr :=
  match r with 0 => keccak_code_0 | 1 => keccak_code_1 | 2 => keccak_code_2 | _ => keccak_code_3 end%nat.

(** The parity of column x, added up in the order in which the code does it. *)
Definition ccol (r : nat) (A : list Z) (x : nat) : Z :=
  let m := place (loc r) A in
  Z.lxor (Z.lxor (Z.lxor (Z.lxor (vget m x) (vget m (x + 5))) (vget m (x + 10))) (vget m (x + 15))) (vget m (x + 20)).
Lemma ccol_eq r A x : (r < 4)%nat -> (x < 5)%nat -> length A = 25%nat -> ccol r A x = Sha3Spec.col A x.
Proof.
  intros Hr Hx LA. do 25 (destruct A as [|? A]; [discriminate|]). destruct A; [|discriminate].
  apply Z.bits_inj'. intros n Hn.
  do 4 (destruct r as [|r]; [
    do 5 (destruct x as [|x]; [lazy -[Z.lxor Z.testbit]; rewrite !Z.lxor_spec; repeat destruct (Z.testbit _ n); reflexivity|]); lia|]).
  lia.
Qed.
Definition theta_c (c : nat -> Z) (A : list Z) : list Z :=
  Sha3Spec.state_of (fun x y => Z.lxor (Sha3Spec.lane A x y) (Z.lxor (c ((x + 4) mod 5)%nat) (Sha3Spec.rot (c ((x + 1) mod 5)%nat) 1))).
Lemma theta_c_eq c A : length A = 25%nat -> (forall x, (x < 5)%nat -> c x = Sha3Spec.col A x) -> theta_c c A = Sha3Spec.theta A.
Proof.
  intros LA H. unfold theta_c, Sha3Spec.theta.
  cbn [Sha3Spec.state_of seq map concat app].
  change ((0 + 4) mod 5)%nat with 4%nat. change ((0 + 1) mod 5)%nat with 1%nat.
  change ((1 + 4) mod 5)%nat with 0%nat. change ((1 + 1) mod 5)%nat with 2%nat.
  change ((2 + 4) mod 5)%nat with 1%nat. change ((2 + 1) mod 5)%nat with 3%nat.
  change ((3 + 4) mod 5)%nat with 2%nat. change ((3 + 1) mod 5)%nat with 4%nat.
  change ((4 + 4) mod 5)%nat with 3%nat. change ((4 + 1) mod 5)%nat with 0%nat.
  rewrite !H by lia.
  do 25 (destruct A as [|? A]; [discriminate|]). destruct A; [|discriminate].
  lazy -[Z.lxor Sha3Spec.rot]. reflexivity.
Qed.
Lemma round_code_c r i A regs : (r < 4)%nat -> length A = 25%nat -> length regs = 11%nat ->
  exists regs', length regs' = 11%nat /\
  srun i (code_of r) (place (loc r) A ++ regs) =
  place (loc (S r)) (Sha3Spec.iota (i + r) (Sha3Spec.chi (Sha3Spec.pi (Sha3Spec.rho (theta_c (ccol r A) A))))) ++ regs'.
Proof.
  intros Hr LA LR.
  do 25 (destruct A as [|? A]; [discriminate|]). destruct A; [|discriminate].
  do 11 (destruct regs as [|? regs]; [discriminate|]). destruct regs; [|discriminate].
  do 4 (destruct r as [|r]; [
    match goal with |- context [srun i ?c ?v] => exists (skipn 25 (srun i c v)) end;
    (split; [lazy -[Z.lxor Z.land Z.sub Z.pow Sha3Spec.rot Sha3Spec.RC]; reflexivity|];
     lazy -[Z.lxor Z.land Z.sub Z.pow Sha3Spec.rot Sha3Spec.RC]; reflexivity)|]).
  lia.
Qed.
Lemma round_code_eq r i A regs : (r < 4)%nat -> length A = 25%nat -> length regs = 11%nat ->
  exists regs', length regs' = 11%nat /\
  srun i (code_of r) (place (loc r) A ++ regs) = place (loc (S r)) (Sha3Spec.Rnd A (i + r)) ++ regs'.
Proof.
  intros Hr LA LR. destruct (round_code_c r i A regs Hr LA LR) as (regs' & L & E). exists regs'. split; [exact L|].
  rewrite E. unfold Sha3Spec.Rnd. rewrite (theta_c_eq (ccol r A) A LA); [reflexivity|].
  intros x Hx. apply ccol_eq; assumption.
Qed.

Lemma Rnd_length A i : length (Sha3Spec.Rnd A i) = 25%nat.
Proof. reflexivity. Qed.
Lemma place_id A : length A = 25%nat -> place (loc 0) A = A.
Proof. intros LA. do 25 (destruct A as [|? A]; [discriminate|]). destruct A; [|discriminate]. reflexivity. Qed.

(** A turn of the loop is four rounds. *)
Lemma turn_eq i A regs : (i + 4 <= 24)%nat -> length A = 25%nat -> all64 A -> length regs = 11%nat -> all64 regs ->
  exists regs', length regs' = 11%nat /\
  krun i keccak_code (A ++ regs) = fold_left Sha3Spec.Rnd (seq i 4) A ++ regs' /\
  all64 (fold_left Sha3Spec.Rnd (seq i 4) A) /\ all64 regs'.
Proof.
  intros Hi LA VA LR VR.
  destruct (krun_srun i keccak_code Hi eq_refl (A ++ regs) ltac:(apply Forall_app; split; assumption)) as [E V].
  assert (SA : forall a b v, srun i (a ++ b) v = srun i b (srun i a v)) by (intros; apply fold_left_app).
  assert (ES : exists regs', length regs' = 11%nat /\ srun i keccak_code (A ++ regs) = fold_left Sha3Spec.Rnd (seq i 4) A ++ regs').
  { unfold keccak_code. rewrite !SA.
    destruct (round_code_eq 0 i A regs ltac:(lia) LA LR) as (g1 & L1 & E1). rewrite (place_id A LA) in E1. cbn [code_of] in E1. rewrite E1.
    destruct (round_code_eq 1 i (Sha3Spec.Rnd A (i + 0)) g1 ltac:(lia) (Rnd_length _ _) L1) as (g2 & L2 & E2). cbn [code_of] in E2. rewrite E2.
    destruct (round_code_eq 2 i (Sha3Spec.Rnd (Sha3Spec.Rnd A (i + 0)) (i + 1)) g2 ltac:(lia) (Rnd_length _ _) L2) as (g3 & L3 & E3). cbn [code_of] in E3. rewrite E3.
    destruct (round_code_eq 3 i (Sha3Spec.Rnd (Sha3Spec.Rnd (Sha3Spec.Rnd A (i + 0)) (i + 1)) (i + 2)) g3 ltac:(lia) (Rnd_length _ _) L3) as (g4 & L4 & E4).
    cbn [code_of] in E4. rewrite E4. exists g4. split; [exact L4|].
    change (loc 4) with (loc 0). rewrite (place_id _ (Rnd_length _ _)). cbn [seq fold_left].
    rewrite Nat.add_0_r. replace (S i) with (i + 1)%nat by lia. replace (S (i + 1)) with (i + 2)%nat by lia.
    replace (S (i + 2)) with (i + 3)%nat by lia. reflexivity. }
  destruct ES as (regs' & L & ES). exists regs'. rewrite E, ES. rewrite ES in V. apply Forall_app in V. destruct V as [V1 V2].
  repeat split; assumption.
Qed.

Lemma four_length i A : length (fold_left Sha3Spec.Rnd (seq i 4) A) = 25%nat.
Proof. cbn [seq fold_left]. apply Rnd_length. Qed.
Lemma six_turns {A} (R : A -> nat -> A) (a : A) :
  fold_left (fun A i => fold_left R (seq i 4) A) [0; 4; 8; 12; 16; 20]%nat a = fold_left R (seq 0 24) a.
Proof. reflexivity. Qed.
Lemma turns_ind (K : list Z -> nat -> list Z) (T : list Z -> nat -> list Z) :
  (forall i A regs, (i + 4 <= 24)%nat -> length A = 25%nat -> all64 A -> length regs = 11%nat -> all64 regs ->
    exists regs', length regs' = 11%nat /\ K (A ++ regs) i = T A i ++ regs' /\ all64 (T A i) /\ all64 regs') ->
  (forall i A, length (T A i) = 25%nat) ->
  forall l A regs, Forall (fun i => (i + 4 <= 24)%nat) l -> length A = 25%nat -> all64 A -> length regs = 11%nat -> all64 regs ->
    exists A' regs', fold_left K l (A ++ regs) = A' ++ regs' /\ A' = fold_left T l A /\ length A' = 25%nat /\ all64 A'.
Proof.
  intros HK HT. induction l as [|i l IH]; intros A regs Hl L V L' V'.
  - exists A, regs. repeat split; assumption.
  - inversion Hl; subst. cbn [fold_left]. destruct (HK i A regs) as (g & Lg & E & VA' & Vg); try assumption.
    rewrite E. apply IH; try assumption. apply HT.
Qed.
Lemma turns_eq : forall l A regs, Forall (fun i => (i + 4 <= 24)%nat) l -> length A = 25%nat -> all64 A -> length regs = 11%nat -> all64 regs ->
    exists A' regs', fold_left (fun v i => krun i keccak_code v) l (A ++ regs) = A' ++ regs' /\
      A' = fold_left (fun A i => fold_left Sha3Spec.Rnd (seq i 4) A) l A /\ length A' = 25%nat /\ all64 A'.
Proof.
  exact (turns_ind (fun v i => krun i keccak_code v) (fun A i => fold_left Sha3Spec.Rnd (seq i 4) A) turn_eq four_length).
Qed.
Theorem keccakF1600_eq a : length a = 25%nat -> all64 a ->
  keccakF1600 a = Sha3Spec.keccak_f a /\ length (Sha3Spec.keccak_f a) = 25%nat /\ all64 (Sha3Spec.keccak_f a).
Proof.
  intros LA VA. unfold keccakF1600.
  destruct (turns_eq [0; 4; 8; 12; 16; 20]%nat a (repeat 0 11)) as (A' & g & E & EA & L & V); try assumption.
  - repeat constructor.
  - reflexivity.
  - apply Forall_forall. intros x Hx. apply repeat_spec in Hx. subst. split; lia.
  - rewrite E. rewrite six_turns in EA. change (A' = Sha3Spec.keccak_f a) in EA. rewrite <- EA. clear E EA.
    split; [|split; assumption]. rewrite firstn_app, L, Nat.sub_diag, firstn_O, app_nil_r. apply firstn_all2. lia.
Qed.
