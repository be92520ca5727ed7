(** Kernel-checked computation of [n]G = infinity for a Weierstrass curve,
    with the fast arithmetic of Mont63.v.  Mathematics only. *)
Require Import ZArith List Lia Znumtheory Uint63 Ring Field Bool.
Require Import Verif.Base Verif.Fp Verif.Mont63 Verif.Weier Verif.Jac Verif.Group Verif.EC.
Import ListNotations.

Notation "'do' x <- e ; f" := (match e with Some x => f | None => None end)
  (at level 200, x name, e at level 100, f at level 200).

Section Check.
Variable m : mctx.
Variables la lgx lgy : list int.   (* a, gx, gy in Montgomery form *)
Local Notation mul := (c_mul m).
Local Notation sub := (c_sub m).

Definition o_dbl (P : list int * list int * list int) : option (list int * list int * list int) :=
  let '(X, Y, Z) := P in
  do yy <- mul Y Y; do xyy <- mul X yy; do s2 <- madd xyy xyy; do s <- madd s2 s2;
  do xx <- mul X X; do xx2 <- madd xx xx; do xx3 <- madd xx2 xx;
  do zz <- mul Z Z; do z4 <- mul zz zz; do az4 <- mul la z4;
  do mm <- madd xx3 az4; do mm2 <- mul mm mm; do ss <- madd s s; do X3 <- sub mm2 ss;
  do d <- sub s X3; do md <- mul mm d;
  do y4 <- mul yy yy; do y42 <- madd y4 y4; do y44 <- madd y42 y42; do y48 <- madd y44 y44;
  do Y3 <- sub md y48;
  do yz <- mul Y Z; do Z3 <- madd yz yz;
  Some (X3, Y3, Z3).

Definition o_madd (P : list int * list int * list int) : option (list int * list int * list int) :=
  let '(X, Y, Z) := P in
  do zz <- mul Z Z; do zzz <- mul Z zz;
  do u2 <- mul lgx zz; do s2 <- mul lgy zzz;
  do h <- sub u2 X; do r <- sub s2 Y;
  do hh <- mul h h; do hhh <- mul h hh; do v <- mul X hh;
  do rr <- mul r r; do t <- sub rr hhh; do v2 <- madd v v; do X3 <- sub t v2;
  do d <- sub v X3; do rd <- mul r d; do yh <- mul Y hhh; do Y3 <- sub rd yh;
  do Z3 <- mul Z h;
  Some (X3, Y3, Z3).

Fixpoint o_mul (e : positive) : option (list int * list int * list int) :=
  match e with
  | xH => Some (lgx, lgy, c_of m 1)
  | xO e' => do P <- o_mul e'; o_dbl P
  | xI e' => do P <- o_mul e'; do Q <- o_dbl P; o_madd Q
  end.

(** [n-1]G = -G, by comparing X = gx Z^2 and Y = -gy Z^3 with Z <> 0. *)
Definition o_check (n : Z) : bool :=
  match (do P <- o_mul (Z.to_pos (n - 1));
         let '(X, Y, Z) := P in
         do zz <- mul Z Z; do zzz <- mul Z zz;
         do u <- mul lgx zz; do s <- mul lgy zzz; do s' <- madd s Y;
         Some (negb (c_val m Z =? 0)%Z && (c_val m X =? c_val m u)%Z && (c_val m s' =? 0)%Z))
  with Some b => b | None => false end.

(** [k]G = (x, y). *)
Definition m_check (k x y : Z) : bool :=
  match (do P <- o_mul (Z.to_pos k);
         let '(X, Y, Z) := P in
         do zz <- mul Z Z; do zzz <- mul Z zz;
         do u <- mul (c_of m x) zz; do s <- mul (c_of m y) zzz;
         Some (negb (c_val m Z =? 0)%Z && (c_val m X =? c_val m u)%Z && (c_val m Y =? c_val m s)%Z))
  with Some b => b | None => false end.

Local Open Scope Z_scope.
Variable c : wcurve.
Hypothesis Hm : mctx_ok m = true.
Hypothesis Hmp : mc_p m = w_p c.
Hypothesis Hf : w_field_ok c.
Hypothesis Hla : mrel m la (fp_of (mc_p m) (w_a c)).
Hypothesis Hgx : mrel m lgx (fp_of (mc_p m) (w_gx c)).
Hypothesis Hgy : mrel m lgy (fp_of (mc_p m) (w_gy c)).
Hypothesis HG : w_on c (w_G c).

Definition jc (x y z : fp (w_p c)) : pt c := jac _ (fp_of _ 0) fp_mul fp_div fp_dec x y z.

(** Invariant: the limbs represent Jacobian coordinates of P, unless Z = 0. *)
Definition orel (L : list int * list int * list int) (P : pt c) : Prop :=
  exists x y z : Z,
    mrel m (fst (fst L)) (fp_of _ x) /\ mrel m (snd (fst L)) (fp_of _ y) /\
    mrel m (snd L) (fp_of _ z) /\
    (z mod w_p c <> 0 -> jc (fp_of _ x) (fp_of _ y) (fp_of _ z) = P).

Lemma mul_z a b x y r : mrel m a (fp_of _ x) -> mrel m b (fp_of _ y) -> mul a b = Some r ->
  mrel m r (fp_of _ (x * y)).
Proof. intros Ha Hb E. rewrite fp_of_mul. eapply c_mul_rel; eauto. Qed.
Lemma sub_z a b x y r : mrel m a (fp_of _ x) -> mrel m b (fp_of _ y) -> sub a b = Some r ->
  mrel m r (fp_of _ (x - y)).
Proof. intros Ha Hb E. rewrite fp_of_sub. eapply c_sub_rel; eauto. Qed.
Lemma add_z a b x y r : mrel m a (fp_of _ x) -> mrel m b (fp_of _ y) -> madd a b = Some r ->
  mrel m r (fp_of _ (x + y)).
Proof. intros Ha Hb E. rewrite fp_of_add. eapply madd_rel; eauto. Qed.

Ltac step H :=
  match type of H with
  | (match ?e with Some _ => _ | None => None end) = Some _ =>
      let E := fresh "E" in let v := fresh "v" in
      destruct e as [v|] eqn:E; [|discriminate H];
      first [ eapply mul_z in E; [|eassumption|eassumption]
            | eapply sub_z in E; [|eassumption|eassumption]
            | eapply add_z in E; [|eassumption|eassumption] ]
  end.

Lemma Kf : field_theory (fp_of (w_p c) 0) (fp_of (w_p c) 1) fp_add fp_mul fp_sub fp_opp fp_div fp_inv eq.
Proof. exact (fp_field _ (wv_prime c Hf)). Qed.
Add Field KFO : Kf.

Lemma o_dbl_rel L P R : orel L P -> o_dbl L = Some R -> orel R (w_add c P P).
Proof.
  destruct L as [[X Y] Z]. intros (x & y & z & Hx & Hy & Hz & HJ) H. cbn [fst snd] in *.
  unfold o_dbl in H. repeat step H. injection H as <-.
  eexists _, _, _. cbn [fst snd]. split; [eassumption|]. split; [eassumption|]. split; [eassumption|].
  intros Hz3.
  assert (Hz0 : z mod w_p c <> 0).
  { intros Q0. apply Hz3. apply fp_of_0 in Q0. apply fp_of_0.
    rewrite fp_of_add, fp_of_mul, Q0. ring. }
  rewrite <- (HJ Hz0). symmetry.
  unfold jc, w_add.
  pose proof (jac_dbl_gen _ _ _ _ _ _ _ _ _ Kf fp_dec (fp_of _ (w_a c)) (w_char2 c Hf)
    (fp_of _ x) (fp_of _ y) (fp_of _ z)) as HD. cbv zeta in HD.
  specialize (HD _ eq_refl). rewrite HD. clear -Hf.
  autorewrite with fpz.
  set (fx := fp_of (w_p c) x). set (fy := fp_of (w_p c) y). set (fz := fp_of (w_p c) z).
  set (fa := fp_of (w_p c) (w_a c)). clearbody fx fy fz fa.
  apply f_equal3; ring.
Qed.

Lemma o_madd_rel L P R : orel L P -> o_madd L = Some R -> orel R (w_add c P (w_G c)).
Proof.
  destruct L as [[X Y] Z]. intros (x & y & z & Hx & Hy & Hz & HJ) H. cbn [fst snd] in *.
  unfold o_madd in H. repeat step H. injection H as <-.
  eexists _, _, _. cbn [fst snd]. split; [eassumption|]. split; [eassumption|]. split; [eassumption|].
  intros Hz3.
  assert (Hp : w_p c <> 0) by (pose proof (wv_odd c Hf); lia).
  assert (Hz0 : z mod w_p c <> 0).
  { intros Q0. apply Hz3. apply fp_of_0 in Q0. apply fp_of_0. rewrite fp_of_mul, Q0. ring. }
  assert (Hh0 : (w_gx c * (z * z) - x) mod w_p c <> 0).
  { intros Q0. apply Hz3. apply fp_of_0 in Q0. apply fp_of_0. rewrite fp_of_mul, Q0. ring. }
  rewrite <- (HJ Hz0). symmetry.
  unfold jc, w_add, w_G, paff.
  pose proof (jac_madd _ _ _ _ _ _ _ _ _ Kf fp_dec (fp_of _ (w_a c))
    (fp_of _ x) (fp_of _ y) (fp_of _ z) (fp_of _ (w_gx c)) (fp_of _ (w_gy c))) as HD. cbv zeta in HD.
  assert (A1 : fp_of (w_p c) z <> fp_of (w_p c) 0) by (rewrite fp_of_0; exact Hz0).
  assert (A2 : fp_of (w_p c) (w_gx c * (z * z) - x) <> fp_of (w_p c) 0) by (rewrite fp_of_0; exact Hh0).
  rewrite fp_of_sub, !fp_of_mul in A2.
  specialize (HD A1 A2 _ eq_refl). rewrite HD. clear -Hf.
  autorewrite with fpz. reflexivity.
Qed.

Lemma o_mul_rel e R : o_mul e = Some R -> orel R (w_mul c (Zpos e) (w_G c)).
Proof.
  pose proof (w_group c Hf) as HW.
  revert R. induction e as [e IH|e IH|]; intros R H; cbn [o_mul] in H.
  - destruct (o_mul e) as [L|]; [|discriminate].
    destruct (o_dbl L) as [Q|] eqn:E; [|discriminate].
    apply (o_dbl_rel _ _ _ (IH _ eq_refl)) in E.
    apply (o_madd_rel _ _ _ E) in H.
    replace (Z.pos e~1) with (Z.pos e + Z.pos e + 1) by lia.
    unfold w_mul in *. rewrite !(zmul_add _ _ _ _ _ HW), (zmul_1 _ _ _ _ _ HW) by exact HG.
    exact H.
  - destruct (o_mul e) as [L|]; [|discriminate].
    apply (o_dbl_rel _ _ _ (IH _ eq_refl)) in H.
    replace (Z.pos e~0) with (Z.pos e + Z.pos e) by lia.
    unfold w_mul in *. rewrite !(zmul_add _ _ _ _ _ HW) by exact HG. exact H.
  - injection H as <-. exists (w_gx c), (w_gy c), 1. cbn [fst snd].
    split; [exact Hgx|]. split; [exact Hgy|]. split; [apply c_of_rel, Hm|].
    intros _. unfold w_mul. rewrite (zmul_1 _ _ _ _ _ HW) by exact HG.
    unfold jc. apply (jac_1 _ _ _ _ _ _ _ _ _ Kf).
Qed.

Theorem o_check_ok n : 2 < n -> o_check n = true -> w_mul c n (w_G c) = pinf c.
Proof.
  intros Hn H. pose proof (w_group c Hf) as HW. unfold o_check in H.
  destruct (o_mul (Z.to_pos (n - 1))) as [[[X Y] Z]|] eqn:EP; [|discriminate].
  apply o_mul_rel in EP. destruct EP as (x & y & z & Hx & Hy & Hz & HJ). cbn [fst snd] in *.
  destruct (c_mul m Z Z) as [zz|] eqn:E1; [|discriminate].
  eapply mul_z in E1; [|eassumption|eassumption].
  destruct (c_mul m Z zz) as [zzz|] eqn:E2; [|discriminate].
  eapply mul_z in E2; [|eassumption|eassumption].
  destruct (c_mul m lgx zz) as [u|] eqn:E3; [|discriminate].
  eapply mul_z in E3; [|eassumption|eassumption].
  destruct (c_mul m lgy zzz) as [s|] eqn:E4; [|discriminate].
  eapply mul_z in E4; [|eassumption|eassumption].
  destruct (madd s Y) as [s'|] eqn:E5; [|discriminate].
  eapply add_z in E5; [|eassumption|eassumption].
  rewrite !andb_true_iff in H. destruct H as ((H1 & H2) & H3).
  rewrite (c_val_rel m _ _ Hz) in H1. rewrite (c_val_rel m _ _ Hx), (c_val_rel m _ _ E3) in H2.
  rewrite (c_val_rel m _ _ E5) in H3. rewrite !fval_of, Hmp in *.
  assert (Hz0 : z mod w_p c <> 0) by (intros Q0; rewrite Q0 in H1; discriminate).
  specialize (HJ Hz0). apply Z.eqb_eq in H2, H3.
  rewrite Z2Pos.id in HJ by lia.
  assert (EN : w_mul c (n - 1) (w_G c) = w_neg c (w_G c)).
  { rewrite <- HJ. unfold jc. rewrite jac_ne by (rewrite fp_of_0; exact Hz0).
    assert (Hzf : fp_of (w_p c) z <> fp_of (w_p c) 0) by (rewrite fp_of_0; exact Hz0).
    unfold w_G, w_neg, paff. cbn [pneg]. f_equal.
    - apply fp_of_eq in H2. rewrite H2, !fp_of_mul. field. auto.
    - apply fp_of_0 in H3. rewrite fp_of_add, !fp_of_mul in H3.
      assert (Ey : fp_of (w_p c) y = fp_opp (fp_mul (fp_of _ (w_gy c))
                 (fp_mul (fp_of _ z) (fp_mul (fp_of _ z) (fp_of _ z))))).
      { match type of H3 with fp_add ?t ?w = _ =>
          transitivity (fp_sub (fp_add t w) t); [ring|]; rewrite H3; ring end. }
      rewrite Ey. field. auto. }
  replace n with (n - 1 + 1) by lia.
  unfold w_mul in *. rewrite (zmul_add _ _ _ _ _ HW), (zmul_1 _ _ _ _ _ HW), EN by exact HG.
  apply (gneg_l _ _ _ _ _ HW). exact HG.
Qed.

Theorem m_check_ok k x y : 0 < k -> m_check k x y = true -> w_mul c k (w_G c) = paff c x y.
Proof.
  intros Hk H. unfold m_check in H.
  destruct (o_mul (Z.to_pos k)) as [[[X Y] Z]|] eqn:EP; [|discriminate].
  apply o_mul_rel in EP. destruct EP as (x0 & y0 & z & Hx & Hy & Hz & HJ). cbn [fst snd] in *.
  destruct (c_mul m Z Z) as [zz|] eqn:E1; [|discriminate].
  eapply mul_z in E1; [|eassumption|eassumption].
  destruct (c_mul m Z zz) as [zzz|] eqn:E2; [|discriminate].
  eapply mul_z in E2; [|eassumption|eassumption].
  destruct (c_mul m (c_of m x) zz) as [u|] eqn:E3; [|discriminate].
  eapply mul_z in E3; [|apply c_of_rel; exact Hm|eassumption].
  destruct (c_mul m (c_of m y) zzz) as [s|] eqn:E4; [|discriminate].
  eapply mul_z in E4; [|apply c_of_rel; exact Hm|eassumption].
  rewrite !andb_true_iff in H. destruct H as ((H1 & H2) & H3).
  rewrite (c_val_rel m _ _ Hz) in H1. rewrite (c_val_rel m _ _ Hx), (c_val_rel m _ _ E3) in H2.
  rewrite (c_val_rel m _ _ Hy), (c_val_rel m _ _ E4) in H3. rewrite !fval_of, Hmp in *.
  assert (Hz0 : z mod w_p c <> 0) by (intros Q0; rewrite Q0 in H1; discriminate).
  specialize (HJ Hz0). apply Z.eqb_eq in H2, H3.
  rewrite Z2Pos.id in HJ by lia.
  rewrite <- HJ. unfold jc. rewrite jac_ne by (rewrite fp_of_0; exact Hz0).
  assert (Hzf : fp_of (w_p c) z <> fp_of (w_p c) 0) by (rewrite fp_of_0; exact Hz0).
  unfold paff. apply fp_of_eq in H2, H3. rewrite H2, H3, !fp_of_mul. f_equal; field; auto.
Qed.

End Check.
