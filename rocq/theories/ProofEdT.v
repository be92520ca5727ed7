(** The precomputed tables of edwards25519.go: base[i][j] = (j+1) 256^i B and
    bi[k] = (2k+1) B, and the constant-time lookup. *)
Require Import ZArith List Lia Bool Znumtheory Field Uint63.
Require Import Verif.Base Verif.Words Verif.Fp Verif.Group Verif.Edw Verif.Mont63 Verif.Primes Verif.OrderCheck Verif.SpecEd Verif.EdHint Verif.EdCurve Verif.ModelSlp Verif.ModelEdCode Verif.ModelEd Verif.ProofSlp Verif.ProofEdF Verif.ProofEdG.
Import ListNotations.
Open Scope Z_scope.
Lemma Kf25t : field_theory (fz 0) (fz 1) fp_add fp_mul fp_sub fp_opp fp_div fp_inv (@eq F25).
Proof. exact Kf25. Qed.
Add Field KF25t : Kf25t.

Definition raw_one : list int := [1;0;0;0;0;0;0;0;0;0]%uint63.
Definition fe_check (l : list int) (f : fe) : bool :=
  lvb f && match c_mul m25 l raw_one with
           | Some r => let v := lval r in let w := fev f in (v =? w) || (v =? w + p25) || (v =? w + 2 * p25) || (v + p25 =? w)
           | None => false
           end.
Lemma r_ne : fz (mc_r m25) <> fz 0.
Proof. intros H. apply fp_of_0 in H. vm_compute in H. discriminate H. Qed.
Lemma fz_p k w : fz (w + k * p25) = fz w.
Proof. apply fp_of_eq. apply Z.mod_add. discriminate. Qed.
Lemma fe_check_ok l f x : mr l x -> fe_check l f = true -> rep 1 f x.
Proof.
  intros Hl H. unfold fe_check in H. apply andb_true_iff in H. destruct H as [H1 H2]. split; [exact (lvb_ok f H1)|].
  destruct (c_mul m25 l raw_one) as [r|] eqn:E; [|discriminate].
  assert (O : mr raw_one (fz (lval raw_one * mc_r m25))) by (apply normb_ok; vm_compute; reflexivity).
  apply (mr_mul _ _ _ _ _ Hl O) in E. destruct E as [_ E]. change (mc_p m25) with p25 in E.
  change (lval raw_one * mc_r m25) with (mc_r m25) in E. rewrite fp_of_mul in E.
  assert (X : fz (lval r) = x).
  { transitivity (fp_div (fp_mul (fz (lval r)) (fz (mc_r m25))) (fz (mc_r m25))); [field; exact r_ne|].
    rewrite E. field. exact r_ne. }
  rewrite <- X. cbv zeta in H2. rewrite !orb_true_iff, !Z.eqb_eq in H2.
  destruct H2 as [[[-> | ->] | ->] | <-].
  - reflexivity.
  - replace (fev f + p25) with (fev f + 1 * p25) by lia. symmetry. apply fz_p.
  - symmetry. apply fz_p.
  - replace (lval r + p25) with (lval r + 1 * p25) by lia. apply fz_p.
Qed.

Definition ent_check (l : lpt) (e : pre) : bool :=
  let '(x, y) := l in
  match (do a <- madd y x; do b <- c_sub m25 y x; do c <- c_mul m25 x y; do dd <- madd h_d h_d; do e2 <- c_mul m25 c dd;
         Some (fe_check a (rP e) && fe_check b (rM e) && fe_check e2 (rD e))) with
  | Some r => r
  | None => false
  end.
Lemma ent_check_ok l e P : prl l P -> ent_check l e = true -> pre_rep e P.
Proof.
  destruct l as [x y], P as [X Y]. intros [A B] H. cbn [fst snd] in *. unfold ent_check in H. pose proof h_d_mr as Hd.
  match type of H with (match ?e with _ => _ end) = true => destruct e as [r|] eqn:E; [|discriminate H] end.
  subst r. repeat mstep E. injection E as E. rewrite !andb_true_iff in E. destruct E as [[Q1 Q2] Q3].
  eapply fe_check_ok in Q1; [|eassumption]. eapply fe_check_ok in Q2; [|eassumption]. eapply fe_check_ok in Q3; [|eassumption].
  exact (conj Q1 (conj Q2 Q3)).
Qed.

(** one row: Q, Q + P, Q + 2P, ...; the last multiple is returned *)
Fixpoint row_check (P Q : lpt) (hs : list lpt) (row : list pre) {struct row} : option lpt :=
  match row with
  | [] => None
  | [e] => if ent_check Q e then Some Q else None
  | e :: row' =>
      match hs with
      | h :: hs' => if ent_check Q e && a_check Q P h then row_check P h hs' row' else None
      | [] => None
      end
  end.
Lemma prl_add l l' l'' j k : prl l (ed_mul j ed_B) -> prl l' (ed_mul k ed_B) -> a_check l l' l'' = true -> prl l'' (ed_mul (j + k) ed_B).
Proof.
  intros A B H. unfold ed_mul in *. rewrite (zmul_add _ _ _ _ _ ed_group) by exact ed_B_on.
  eapply a_check_ok; [exact A|exact B| | |exact H]; apply (zmul_ok _ _ _ _ _ ed_group); exact ed_B_on.
Qed.
Lemma row_check_ok P k : prl P (ed_mul k ed_B) -> forall row Q j hs R, prl Q (ed_mul j ed_B) -> row_check P Q hs row = Some R ->
  prl R (ed_mul (j + (Z.of_nat (length row) - 1) * k) ed_B) /\
  forall n, (n < length row)%nat -> pre_rep (nth n row r0) (ed_mul (j + Z.of_nat n * k) ed_B).
Proof.
  intros HP. induction row as [|e row IH]; intros Q j hs R HQ H; [cbn [row_check] in H; discriminate H|].
  destruct row as [|e' row'].
  - cbn [row_check] in H. destruct (ent_check Q e) eqn:E; [|discriminate]. injection H as <-. split.
    + cbn [length]. replace (j + (Z.of_nat 1 - 1) * k) with j by lia. exact HQ.
    + intros n Hn. cbn [length] in Hn. assert (n = 0%nat) as -> by lia. cbn [nth].
      replace (j + Z.of_nat 0 * k) with j by lia. eapply ent_check_ok; eassumption.
  - cbn [row_check] in H. destruct hs as [|h hs']; [discriminate|].
    destruct (ent_check Q e) eqn:E; [|discriminate]. cbn [andb] in H.
    destruct (a_check Q P h) eqn:E'; [|discriminate].
    pose proof (prl_add _ _ _ _ _ HQ HP E') as HQ'. destruct (IH _ _ _ _ HQ' H) as [I1 I2]. split.
    + replace (j + (Z.of_nat (length (e :: e' :: row')) - 1) * k) with (j + k + (Z.of_nat (length (e' :: row')) - 1) * k); [exact I1|].
      cbn [length]. lia.
    + intros [|n] Hn.
      * replace (j + Z.of_nat 0 * k) with j by lia. cbn [nth]. eapply ent_check_ok; eassumption.
      * cbn [nth]. replace (j + Z.of_nat (S n) * k) with (j + k + Z.of_nat n * k) by lia. apply I2. cbn [length] in *. lia.
Qed.

Fixpoint dbls (P : lpt) (l : list lpt) : option lpt :=
  match l with [] => Some P | h :: t => if a_check P P h then dbls h t else None end.
Lemma dbls_ok l : forall P k R, prl P (ed_mul k ed_B) -> dbls P l = Some R -> prl R (ed_mul (k * 2 ^ Z.of_nat (length l)) ed_B).
Proof.
  induction l as [|h t IH]; intros P k R HP H; cbn [dbls] in H.
  - injection H as <-. cbn [length]. change (2 ^ Z.of_nat 0) with 1. rewrite Z.mul_1_r. exact HP.
  - destruct (a_check P P h) eqn:E; [|discriminate]. apply (prl_add _ _ _ _ _ HP HP) in E.
    apply (IH _ _ _ E) in H. cbn [length]. rewrite Nat2Z.inj_succ, Z.pow_succ_r by lia.
    replace (k * (2 * 2 ^ Z.of_nat (length t))) with ((k + k) * 2 ^ Z.of_nat (length t)) by ring. exact H.
Qed.

Fixpoint rows_check (P : lpt) (hs : list (list lpt * list lpt)) (tbl : list (list pre)) {struct tbl} : bool :=
  match tbl, hs with
  | [], _ => true
  | row :: tbl', (h, d) :: hs' =>
      (length row =? 8)%nat && (length d =? 5)%nat &&
      match row_check P P h row with
      | Some Q => match dbls Q d with Some P' => rows_check P' hs' tbl' | None => false end
      | None => false
      end
  | _, _ => false
  end.
Lemma rows_check_ok : forall tbl hs P k, prl P (ed_mul k ed_B) -> rows_check P hs tbl = true ->
  forall i j, (i < length tbl)%nat -> (j < 8)%nat ->
  pre_rep (nth j (nth i tbl []) r0) (ed_mul ((Z.of_nat j + 1) * (k * 256 ^ Z.of_nat i)) ed_B).
Proof.
  induction tbl as [|row tbl IH]; intros hs P k HP H i j Hi Hj; [cbn in Hi; lia|].
  cbn [rows_check] in H. destruct hs as [|[h d] hs']; [discriminate|].
  apply andb_true_iff in H. destruct H as [H H2]. apply andb_true_iff in H. destruct H as [H0 H1].
  apply Nat.eqb_eq in H0, H1. destruct (row_check P P h row) as [Q|] eqn:E; [|discriminate].
  destruct (row_check_ok P k HP row P k h Q HP E) as [R1 R2]. rewrite H0 in *.
  destruct (dbls Q d) as [P'|] eqn:E'; [|discriminate]. apply (dbls_ok _ _ _ _ R1) in E'. rewrite H1 in E'.
  destruct i as [|i].
  - cbn [nth]. replace ((Z.of_nat j + 1) * (k * 256 ^ Z.of_nat 0)) with (k + Z.of_nat j * k) by (change (256 ^ Z.of_nat 0) with 1; lia).
    apply R2. lia.
  - cbn [nth]. specialize (IH hs' P' _ E' H2 i j ltac:(cbn in Hi; lia) Hj).
    replace ((Z.of_nat j + 1) * (k * 256 ^ Z.of_nat (S i)))
      with ((Z.of_nat j + 1) * ((k + (Z.of_nat 8 - 1) * k) * 2 ^ Z.of_nat 5 * 256 ^ Z.of_nat i)); [exact IH|].
    rewrite (Nat2Z.inj_succ i), Z.pow_succ_r by lia. change (2 ^ Z.of_nat 5) with 32. change (Z.of_nat 8) with 8. ring.
Qed.

Lemma mul_1_B : ed_mul 1 ed_B = ed_B.
Proof. apply (zmul_1 _ _ _ _ _ ed_group). exact ed_B_on. Qed.

Lemma base_len : length base = 32%nat. Proof. reflexivity. Qed.
Lemma base_rows : rows_check h_B h_rows base = true.
Proof. vm_cast_no_check (@eq_refl bool true). Qed.
Theorem base_ok i j : (i < 32)%nat -> (j < 8)%nat ->
  pre_rep (nth j (nth i base []) r0) (ed_mul ((Z.of_nat j + 1) * 256 ^ Z.of_nat i) ed_B).
Proof.
  intros Hi Hj. pose proof (rows_check_ok base h_rows h_B 1) as H. rewrite mul_1_B, base_len in H.
  specialize (H h_B_prl base_rows i j Hi Hj). rewrite Z.mul_1_l in H. exact H.
Qed.

Lemma bi_row : match row_check h_B2 h_B h_odd bi with Some _ => a_check h_B h_B h_B2 | None => false end = true.
Proof. vm_cast_no_check (@eq_refl bool true). Qed.
Lemma bi_len : length bi = 8%nat. Proof. reflexivity. Qed.
Theorem bi_ok k : (k < 8)%nat -> pre_rep (nth k bi r0) (ed_mul (2 * Z.of_nat k + 1) ed_B).
Proof.
  intros Hk. pose proof bi_row as H. destruct (row_check h_B2 h_B h_odd bi) as [R|] eqn:E; [|discriminate].
  assert (HB : prl h_B (ed_mul 1 ed_B)) by (rewrite mul_1_B; exact h_B_prl).
  pose proof (prl_add _ _ _ _ _ HB HB H) as H2.
  destruct (row_check_ok h_B2 _ H2 bi h_B 1 h_odd R HB E) as [_ X]. rewrite bi_len in X.
  replace (2 * Z.of_nat k + 1) with (1 + Z.of_nat k * (1 + 1)) by lia. apply X. exact Hk.
Qed.
