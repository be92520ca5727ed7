(** An amd64 routine that writes every register, stack slot and flag before
    reading it computes a function of its arguments alone. *)
From Coq Require Import ZArith List Bool Lia.
From Verif Require Import ModelBlsF ModelX86.
Import ListNotations.
Local Open Scope Z_scope.

(** indices and flags whose content is known not to depend on the start state *)
Record kst := mkK { kD : list nat; kc : bool; ko : bool }.

Definition kin (k : kst) (n : nat) : bool := existsb (Nat.eqb n) (kD k).
Definition ksrc (k : kst) (s : src) : bool := match s with L l => kin k (ix l) | _ => true end.
Definition same_loc (s : src) (d : loc) : bool := match s with L l => Nat.eqb (ix l) (ix d) | _ => false end.

Definition kstep (k : kst) (i : xins) : option kst :=
  match i with
  | MOVQ s d => if ksrc k s then Some (mkK (ix d :: kD k) (kc k) (ko k)) else None
  | ADDQ s d | SUBQ s d => if ksrc k s && kin k (ix d) then Some (mkK (kD k) true true) else None
  | ADCQ s d | SBBQ s d => if ksrc k s && kin k (ix d) && kc k then Some (mkK (kD k) true true) else None
  | ADCXQ s d => if ksrc k s && kin k (ix d) && kc k then Some k else None
  | ADOXQ s d => if ksrc k s && kin k (ix d) && ko k then Some k else None
  | MULQ s => if ksrc k s && kin k (ix AX) then Some (mkK (ix DX :: ix AX :: kD k) true true) else None
  | MULXQ s lo hi =>
      if ksrc k s && kin k (ix DX) then Some (mkK (ix hi :: ix lo :: kD k) (kc k) (ko k)) else None
  | XORQ s d =>
      if same_loc s d || (ksrc k s && kin k (ix d)) then Some (mkK (ix d :: kD k) true true) else None
  | CMOVQCC s d => if ksrc k s && kin k (ix d) && kc k then Some k else None
  end.

Fixpoint krun (k : kst) (c : list xins) : option kst :=
  match c with [] => Some k | i :: c' => match kstep k i with Some k' => krun k' c' | None => None end end.

Definition agree (k : kst) (s t : xst) : Prop :=
  length (mem s) = length (mem t) /\
  (forall n, kin k n = true -> nth n (mem s) 0 = nth n (mem t) 0) /\
  (kc k = true -> cf s = cf t) /\ (ko k = true -> ovf s = ovf t).

Lemma upd_length : forall l n v, length (upd l n v) = length l.
Proof. induction l as [|x l IH]; intros [|n] v; cbn; [reflexivity..|]. rewrite IH. reflexivity. Qed.
Lemma nth_upd_ne : forall l n m v, n <> m -> nth n (upd l m v) 0 = nth n l 0.
Proof.
  induction l as [|x l IH]; intros [|n] [|m] v N; cbn; try reflexivity; [contradiction|].
  apply IH. lia.
Qed.
Lemma upd_agree : forall l l' n v m, length l = length l' ->
  (m <> n -> nth m l 0 = nth m l' 0) -> nth m (upd l n v) 0 = nth m (upd l' n v) 0.
Proof.
  intros l l' n v m Len H. destruct (Nat.eq_dec m n) as [->|N].
  - clear H. revert l' n Len. induction l as [|x l IH]; intros [|y l'] n Len; try discriminate Len; [reflexivity|].
    destruct n as [|n]; [reflexivity|]. cbn. apply IH. injection Len. auto.
  - rewrite !nth_upd_ne by exact N. apply H, N.
Qed.

Lemma kin_cons : forall D c o n m, kin (mkK (n :: D) c o) m = true -> m = n \/ kin (mkK D c o) m = true.
Proof.
  intros D c o n m H. unfold kin in *. cbn [kD existsb] in *. apply orb_true_iff in H.
  destruct H as [H|H]; [left; apply Nat.eqb_eq, H|right; exact H].
Qed.
Lemma kin_flags : forall D c o c' o' m, kin (mkK D c o) m = kin (mkK D c' o') m.
Proof. reflexivity. Qed.

Lemma rd_agree : forall k s t x, agree k s t -> ksrc k x = true -> rd s x = rd t x.
Proof. intros k s t [l|z|n|] A H; try reflexivity. apply A. exact H. Qed.

(** writing the same value at the same index *)
Lemma wr_agree : forall D c o c' o' c1 o1 c2 o2 m1 m2 n v,
  agree (mkK D c o) (mkX m1 c1 o1) (mkX m2 c2 o2) ->
  forall e1 e2 f1 f2, (c' = true -> e1 = e2) -> (o' = true -> f1 = f2) ->
  agree (mkK (n :: D) c' o') (mkX (upd m1 n v) e1 f1) (mkX (upd m2 n v) e2 f2).
Proof.
  intros D c o c' o' c1 o1 c2 o2 m1 m2 n v (Len & A & _ & _) e1 e2 f1 f2 E F.
  cbn [mem cf ovf kc ko] in *. repeat split; cbn [mem cf ovf kc ko]; auto.
  - rewrite !upd_length. exact Len.
  - intros m H. apply upd_agree; [exact Len|]. intros N. apply A.
    destruct (kin_cons _ _ _ _ _ H) as [->|H']; [contradiction|exact H'].
Qed.
(** the same, at an index already known *)
Lemma wr_agree2 : forall D c o c' o' c1 o1 c2 o2 m1 m2 n v,
  agree (mkK D c o) (mkX m1 c1 o1) (mkX m2 c2 o2) ->
  forall e1 e2 f1 f2, (c' = true -> e1 = e2) -> (o' = true -> f1 = f2) ->
  agree (mkK D c' o') (mkX (upd m1 n v) e1 f1) (mkX (upd m2 n v) e2 f2).
Proof.
  intros D c o c' o' c1 o1 c2 o2 m1 m2 n v (Len & A & _ & _) e1 e2 f1 f2 E F.
  cbn [mem cf ovf kc ko] in *. repeat split; cbn [mem cf ovf kc ko]; auto.
  - rewrite !upd_length. exact Len.
  - intros m H. apply upd_agree; [exact Len|]. intros N. apply A. exact H.
Qed.

Lemma kstep_agree : forall i k k' s t, kstep k i = Some k' -> agree k s t -> agree k' (xstep s i) (xstep t i).
Proof.
  intros i [D c o] k' [m1 c1 o1] [m2 c2 o2] H A.
  assert (AC : c = true -> c1 = c2) by apply A. assert (AO : o = true -> o1 = o2) by apply A.
  destruct i; cbn [kstep kc ko kD] in H;
    match type of H with (if ?b then _ else _) = _ => destruct b eqn:E; [|discriminate H] end;
    injection H as <-; repeat (apply andb_true_iff in E; destruct E as [E ?]);
    unfold xstep, xadd, xsub, wr; cbn [mem cf ovf].
  - rewrite (rd_agree _ _ _ _ A E). eapply wr_agree; eauto.
  - rewrite (rd_agree _ _ _ s A E), (rd_agree _ _ _ (L d) A) by assumption.
    destruct add64. eapply wr_agree2; eauto.
  - rewrite (rd_agree _ _ _ s A E), (rd_agree _ _ _ (L d) A), AC by assumption.
    destruct add64. eapply wr_agree2; eauto.
  - rewrite (rd_agree _ _ _ s A E), (rd_agree _ _ _ (L d) A), AC by assumption.
    destruct add64. eapply wr_agree2; eauto.
  - rewrite (rd_agree _ _ _ s A E), (rd_agree _ _ _ (L d) A), AO by assumption.
    destruct add64. eapply wr_agree2; eauto.
  - rewrite (rd_agree _ _ _ s A E), (rd_agree _ _ _ (L d) A) by assumption.
    destruct sub64. eapply wr_agree2; eauto.
  - rewrite (rd_agree _ _ _ s A E), (rd_agree _ _ _ (L d) A), AC by assumption.
    destruct sub64. eapply wr_agree2; eauto.
  - rewrite (rd_agree _ _ _ s A E), (rd_agree _ _ _ (L AX) A) by assumption.
    destruct mul64. eapply wr_agree; [eapply wr_agree; eauto|..]; auto.
  - rewrite (rd_agree _ _ _ s A E), (rd_agree _ _ _ (L DX) A) by assumption.
    destruct mul64. eapply wr_agree; [eapply wr_agree; eauto|..]; auto.
  - apply orb_true_iff in E. destruct E as [E|E].
    + unfold same_loc in E. destruct s as [l| | |]; try discriminate E. apply Nat.eqb_eq in E.
      cbn [rd mem]. rewrite E, !Z.lxor_nilpotent. eapply wr_agree; eauto.
    + apply andb_true_iff in E. destruct E as [E ?].
      rewrite (rd_agree _ _ _ s A E), (rd_agree _ _ _ (L d) A) by assumption. eapply wr_agree; eauto.
  - rewrite (rd_agree _ _ _ s A E). assert (c1 = c2) as -> by auto.
    destruct (c2 =? 0); [eapply wr_agree2; eauto|exact A].
Qed.

Lemma krun_agree : forall c k k' s t, krun k c = Some k' -> agree k s t -> agree k' (xrun c s) (xrun c t).
Proof.
  induction c as [|i c IH]; intros k k' s t H A; cbn [krun] in H.
  - injection H as <-. exact A.
  - destruct (kstep k i) as [k1|] eqn:E; [|discriminate H].
    unfold xrun. cbn [fold_left]. apply (IH _ _ _ _ H). eapply kstep_agree; eauto.
Qed.

(** argument and result words known, nothing else *)
Definition kstart : kst := mkK (seq 17 18) false false.
Definition closed (c : list xins) : bool :=
  match krun kstart c with Some k => forallb (kin k) (seq 29 6) | None => false end.

Lemma xstep_len : forall i st, length (mem (xstep st i)) = length (mem st).
Proof.
  intros i st. destruct i; unfold xstep, xadd, xsub, wr;
    repeat match goal with |- context[let '(_, _) := ?e in _] => destruct e | |- context[if ?b then _ else _] => destruct b end;
    cbn [mem]; rewrite ?upd_length; reflexivity.
Qed.
Lemma xrun_len : forall c st, length (mem (xrun c st)) = length (mem st).
Proof.
  induction c as [|i c IH]; intros st; [reflexivity|].
  change (xrun (i :: c) st) with (xrun c (xstep st i)). rewrite IH. apply xstep_len.
Qed.

Lemma skipn_nth : forall n (l l' : list Z), length l = length l' ->
  (forall m, (n <= m < length l)%nat -> nth m l 0 = nth m l' 0) -> skipn n l = skipn n l'.
Proof.
  induction n as [|n IH]; intros l l' Len H.
  - cbn. apply (nth_ext l l' 0 0 Len). intros m Hm. apply H. lia.
  - destruct l as [|x l], l' as [|y l']; try discriminate Len; [reflexivity|]. cbn [skipn].
    apply IH; [injection Len; auto|]. intros m Hm. apply (H (S m)). cbn [length]. lia.
Qed.

Theorem closed_call : forall code, closed code = true -> forall a b junk junk' c c' o o',
  length a = 6%nat -> length b = 6%nat -> length junk = 17%nat -> length junk' = 17%nat ->
  xcall code junk c o a b = xcall code junk' c' o' a b.
Proof.
  intros code H a b junk junk' c c' o o' La Lb J J'. unfold closed in H.
  destruct (krun kstart code) as [k|] eqn:E; [|discriminate H].
  assert (L0 : forall j c o, length j = 17%nat -> length (mem (xstart j c o a b)) = 35%nat).
  { intros j c0 o0 Hj. cbn [xstart mem]. rewrite !app_length, Hj, La, Lb. reflexivity. }
  assert (A : agree kstart (xstart junk c o a b) (xstart junk' c' o' a b)).
  { split; [rewrite !L0 by assumption; reflexivity|]. split; [|split; discriminate].
    intros n Hn. cbn [xstart mem].
    assert (17 <= n)%nat.
    { unfold kin, kstart in Hn. cbn [kD] in Hn. apply existsb_exists in Hn. destruct Hn as (m & I & Em).
      apply Nat.eqb_eq in Em. subst m. apply in_seq in I. lia. }
    rewrite (app_nth2 junk), (app_nth2 junk') by lia. rewrite J, J'. reflexivity. }
  destruct (krun_agree _ _ _ _ _ E A) as (Len & M & _).
  unfold xcall, xresult. apply skipn_nth; [exact Len|]. intros m Hm. apply M.
  rewrite xrun_len, L0 in Hm by assumption.
  rewrite forallb_forall in H. apply H, in_seq. lia.
Qed.
