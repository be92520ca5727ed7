(** The generator of the group G2 of BLS12-381 has order r: a computation over
    F_p(i) with the fast arithmetic of Mont63.v.  Mathematics only. *)
From Coq Require Import ZArith List Lia Znumtheory Uint63 Ring Field Bool.
From Verif Require Import Base Fp Mont63 Weier Jac Group BlsFp2 OrderCheck.
Import ListNotations.

Section Chain.
Variable m : mctx.
Definition L2 : Type := (list int * list int)%type.
Definition mul2 (x y : L2) : option L2 :=
  do a <- c_mul m (fst x) (fst y); do b <- c_mul m (snd x) (snd y);
  do c <- c_mul m (fst x) (snd y); do d <- c_mul m (snd x) (fst y);
  do r <- c_sub m a b; do s <- madd c d; Some (r, s).
Definition add2 (x y : L2) : option L2 :=
  do r <- madd (fst x) (fst y); do s <- madd (snd x) (snd y); Some (r, s).
Definition sub2 (x y : L2) : option L2 :=
  do r <- c_sub m (fst x) (fst y); do s <- c_sub m (snd x) (snd y); Some (r, s).
Variables gx gy one : L2.
Definition t_dbl (P : L2 * L2 * L2) : option (L2 * L2 * L2) :=
  let '(X, Y, Z) := P in
  do yy <- mul2 Y Y; do xyy <- mul2 X yy; do s2 <- add2 xyy xyy; do s <- add2 s2 s2;
  do xx <- mul2 X X; do xx2 <- add2 xx xx; do mm <- add2 xx2 xx;
  do mm2 <- mul2 mm mm; do ss <- add2 s s; do X3 <- sub2 mm2 ss;
  do d <- sub2 s X3; do md <- mul2 mm d;
  do y4 <- mul2 yy yy; do y42 <- add2 y4 y4; do y44 <- add2 y42 y42; do y48 <- add2 y44 y44;
  do Y3 <- sub2 md y48;
  do yz <- mul2 Y Z; do Z3 <- add2 yz yz;
  Some (X3, Y3, Z3).
Definition t_madd (P : L2 * L2 * L2) : option (L2 * L2 * L2) :=
  let '(X, Y, Z) := P in
  do zz <- mul2 Z Z; do zzz <- mul2 Z zz;
  do u2 <- mul2 gx zz; do s2 <- mul2 gy zzz;
  do h <- sub2 u2 X; do r <- sub2 s2 Y;
  do hh <- mul2 h h; do hhh <- mul2 h hh; do v <- mul2 X hh;
  do rr <- mul2 r r; do t <- sub2 rr hhh; do v2 <- add2 v v; do X3 <- sub2 t v2;
  do d <- sub2 v X3; do rd <- mul2 r d; do yh <- mul2 Y hhh; do Y3 <- sub2 rd yh;
  do Z3 <- mul2 Z h;
  Some (X3, Y3, Z3).
Fixpoint t_mul (e : positive) : option (L2 * L2 * L2) :=
  match e with
  | xH => Some (gx, gy, one)
  | xO e' => do P <- t_mul e'; t_dbl P
  | xI e' => do P <- t_mul e'; do Q <- t_dbl P; t_madd Q
  end.
Definition v2 (x : L2) : Z * Z := (c_val m (fst x), c_val m (snd x)).
Definition z2eq (a b : Z * Z) : bool := (fst a =? fst b)%Z && (snd a =? snd b)%Z.
(** [n-1]G = -G *)
Definition t_check (n : Z) : bool :=
  match (do P <- t_mul (Z.to_pos (n - 1));
         let '(X, Y, Z) := P in
         do zz <- mul2 Z Z; do zzz <- mul2 Z zz;
         do u <- mul2 gx zz; do s <- mul2 gy zzz; do s' <- add2 s Y;
         Some (negb (z2eq (v2 Z) (0, 0)%Z) && z2eq (v2 X) (v2 u) && z2eq (v2 s') (0, 0)%Z))
  with Some b => b | None => false end.
(** [n]G has another x-coordinate than ax *)
Definition t_ne (ax : L2) (n : Z) : bool :=
  match (do P <- t_mul (Z.to_pos n);
         let '(X, Y, Z) := P in
         do zz <- mul2 Z Z; do u <- mul2 ax zz;
         Some (negb (z2eq (v2 Z) (0, 0)%Z) && negb (z2eq (v2 X) (v2 u))))
  with Some b => b | None => false end.
(** the point is on y^2 = x^3 + b *)
Definition t_on (b : L2) : bool :=
  match (do yy <- mul2 gy gy; do xx <- mul2 gx gx; do xxx <- mul2 xx gx; do r <- add2 xxx b; Some (z2eq (v2 yy) (v2 r)))
  with Some b => b | None => false end.

Local Open Scope Z_scope.
Notation p := (mc_p m).
Hypothesis Hm : mctx_ok m = true.
Hypothesis Hp : prime p.
Hypothesis H34 : p mod 4 = 3.
Definition rel2 (L : L2) (x : fp2 p) : Prop := mrel m (fst L) (fst x) /\ mrel m (snd L) (snd x).
Lemma mul2_rel a b x y r : rel2 a x -> rel2 b y -> mul2 a b = Some r -> rel2 r (q2_mul x y).
Proof using Hm.
  intros [A0 A1] [B0 B1] E. unfold mul2 in E.
  destruct (c_mul m (fst a) (fst b)) as [t1|] eqn:E1; [|discriminate]. eapply c_mul_rel in E1; [|exact Hm|eassumption|eassumption].
  destruct (c_mul m (snd a) (snd b)) as [t2|] eqn:E2; [|discriminate]. eapply c_mul_rel in E2; [|exact Hm|eassumption|eassumption].
  destruct (c_mul m (fst a) (snd b)) as [t3|] eqn:E3; [|discriminate]. eapply c_mul_rel in E3; [|exact Hm|eassumption|eassumption].
  destruct (c_mul m (snd a) (fst b)) as [t4|] eqn:E4; [|discriminate]. eapply c_mul_rel in E4; [|exact Hm|eassumption|eassumption].
  destruct (c_sub m t1 t2) as [r0|] eqn:E5; [|discriminate]. eapply c_sub_rel in E5; [|exact Hm|eassumption|eassumption].
  destruct (madd t3 t4) as [r1|] eqn:E6; [|discriminate]. eapply madd_rel in E6; [|eassumption|eassumption].
  injection E as <-. split; assumption.
Qed.
Lemma add2_rel a b x y r : rel2 a x -> rel2 b y -> add2 a b = Some r -> rel2 r (q2_add x y).
Proof using Hm.
  intros [A0 A1] [B0 B1] E. unfold add2 in E.
  destruct (madd (fst a) (fst b)) as [t1|] eqn:E1; [|discriminate]. eapply madd_rel in E1; [|eassumption|eassumption].
  destruct (madd (snd a) (snd b)) as [t2|] eqn:E2; [|discriminate]. eapply madd_rel in E2; [|eassumption|eassumption].
  injection E as <-. split; assumption.
Qed.
Lemma sub2_rel a b x y r : rel2 a x -> rel2 b y -> sub2 a b = Some r -> rel2 r (q2_sub x y).
Proof using Hm.
  intros [A0 A1] [B0 B1] E. unfold sub2 in E.
  destruct (c_sub m (fst a) (fst b)) as [t1|] eqn:E1; [|discriminate]. eapply c_sub_rel in E1; [|exact Hm|eassumption|eassumption].
  destruct (c_sub m (snd a) (snd b)) as [t2|] eqn:E2; [|discriminate]. eapply c_sub_rel in E2; [|exact Hm|eassumption|eassumption].
  injection E as <-. split; assumption.
Qed.
Lemma v2_eq a b x y : rel2 a x -> rel2 b y -> z2eq (v2 a) (v2 b) = true -> x = y.
Proof using Hm.
  intros [A0 A1] [B0 B1] E. unfold z2eq, v2 in E. cbn [fst snd] in E. apply andb_true_iff in E. destruct E as [E E'].
  apply Z.eqb_eq in E, E'. rewrite (c_val_rel m _ _ A0), (c_val_rel m _ _ B0) in E. rewrite (c_val_rel m _ _ A1), (c_val_rel m _ _ B1) in E'.
  apply fp_eq in E, E'. destruct x, y. cbn [fst snd] in *. congruence.
Qed.
Lemma fval_0 : fval (fp_of p 0) = 0. Proof. rewrite fval_of. apply Zmod_0_l. Qed.
Lemma v2_0 a x : rel2 a x -> z2eq (v2 a) (0, 0) = true <-> x = q2 p 0 0.
Proof using Hm.
  intros [A0 A1]. unfold z2eq, v2. cbn [fst snd]. rewrite (c_val_rel m _ _ A0), (c_val_rel m _ _ A1), andb_true_iff, !Z.eqb_eq.
  destruct x as [x0 x1]. cbn [fst snd]. split.
  - intros [E E']. unfold q2. f_equal; apply fp_eq; rewrite fval_0; assumption.
  - unfold q2. intros E. apply pair_equal_spec in E. destruct E as [-> ->]. rewrite fval_0. auto.
Qed.
Lemma Kt : field_theory (q2 p 0 0) (q2 p 1 0) q2_add q2_mul q2_sub q2_opp q2_div q2_inv eq.
Proof using Hp H34. exact (fp2_field p Hp H34). Qed.
Add Field KFT : Kt.
Notation j2 := (jac (fp2 p) (q2 p 0 0) q2_mul q2_div q2_dec).
Notation add := (padd (fp2 p) (q2 p 1 0) q2_add q2_mul q2_sub q2_opp q2_div q2_dec (q2 p 0 0)).
Notation neg := (pneg (fp2 p) q2_opp).
Hypothesis char2 : q2_add (q2 p 1 0) (q2 p 1 0) <> q2 p 0 0.
Variables (fx fy fb : fp2 p).
Hypothesis Hgx : rel2 gx fx.
Hypothesis Hgy : rel2 gy fy.
Hypothesis Hone : rel2 one (q2 p 1 0).
Notation on := (on_curve (fp2 p) q2_add q2_mul (q2 p 0 0) fb).
Notation mulz := (zmul (Inf (fp2 p)) add neg).
Hypothesis G : is_group (point (fp2 p)) (Inf _) add neg on.
Definition trel (L : L2 * L2 * L2) (P : point (fp2 p)) : Prop :=
  exists x y z, rel2 (fst (fst L)) x /\ rel2 (snd (fst L)) y /\ rel2 (snd L) z /\
    (z <> q2 p 0 0 -> j2 x y z = P).
Ltac step H :=
  match type of H with
  | (match ?e with Some _ => _ | None => None end) = Some _ =>
      let E := fresh "E" in let v := fresh "v" in
      destruct e as [v|] eqn:E; [|discriminate H];
      first [ eapply mul2_rel in E; [|eassumption|eassumption]
            | eapply sub2_rel in E; [|eassumption|eassumption]
            | eapply add2_rel in E; [|eassumption|eassumption] ]
  end.
Lemma t_dbl_rel L P R : trel L P -> t_dbl L = Some R -> trel R (add P P).
Proof using Hm Hp H34 char2.
  destruct L as [[X Y] Z]. intros (x & y & z & Hx & Hy & Hz & HJ) H. cbn [fst snd] in *.
  unfold t_dbl in H. repeat step H. injection H as <-.
  eexists _, _, _. cbn [fst snd]. split; [eassumption|]. split; [eassumption|]. split; [eassumption|].
  intros Hz3. assert (Hz0 : z <> q2 p 0 0) by (intros ->; apply Hz3; ring).
  rewrite <- (HJ Hz0). symmetry.
  pose proof (jac_dbl_gen _ _ _ _ _ _ _ _ _ Kt q2_dec (q2 p 0 0) char2 x y z) as HD. cbv zeta in HD.
  specialize (HD _ eq_refl). rewrite HD. clear - Hp H34. apply f_equal3; ring.
Qed.
Lemma t_madd_rel L P R : trel L P -> t_madd L = Some R -> trel R (add P (Aff _ fx fy)).
Proof using Hm Hp H34 Hgx Hgy.
  destruct L as [[X Y] Z]. intros (x & y & z & Hx & Hy & Hz & HJ) H. cbn [fst snd] in *.
  unfold t_madd in H. repeat step H. injection H as <-.
  eexists _, _, _. cbn [fst snd]. split; [eassumption|]. split; [eassumption|]. split; [eassumption|].
  intros Hz3. assert (Hz0 : z <> q2 p 0 0) by (intros ->; apply Hz3; ring).
  rewrite <- (HJ Hz0). symmetry.
  pose proof (jac_madd _ _ _ _ _ _ _ _ _ Kt q2_dec (q2 p 0 0) x y z fx fy) as HD. cbv zeta in HD.
  refine (HD Hz0 _ _ eq_refl). intros Q0. apply Hz3. rewrite Q0. ring.
Qed.
Hypothesis HG : on (Aff _ fx fy).
Lemma t_mul_rel e R : t_mul e = Some R -> trel R (mulz (Zpos e) (Aff _ fx fy)).
Proof using Hm Hp H34 char2 Hgx Hgy Hone G HG.
  revert R. induction e as [e IH|e IH|]; intros R H; cbn [t_mul] in H.
  - destruct (t_mul e) as [L|]; [|discriminate]. destruct (t_dbl L) as [Q|] eqn:E; [|discriminate].
    apply (t_dbl_rel _ _ _ (IH _ eq_refl)) in E. apply (t_madd_rel _ _ _ E) in H.
    replace (Z.pos e~1) with (Z.pos e + Z.pos e + 1) by lia.
    rewrite !(zmul_add _ _ _ _ _ G), (zmul_1 _ _ _ _ _ G) by exact HG. exact H.
  - destruct (t_mul e) as [L|]; [|discriminate]. apply (t_dbl_rel _ _ _ (IH _ eq_refl)) in H.
    replace (Z.pos e~0) with (Z.pos e + Z.pos e) by lia. rewrite !(zmul_add _ _ _ _ _ G) by exact HG. exact H.
  - injection H as <-. exists fx, fy, (q2 p 1 0). cbn [fst snd].
    split; [exact Hgx|]. split; [exact Hgy|]. split; [exact Hone|].
    intros _. rewrite (zmul_1 _ _ _ _ _ G) by exact HG. apply (jac_1 _ _ _ _ _ _ _ _ _ Kt).
Qed.
Theorem t_check_ok n : 2 < n -> t_check n = true -> mulz n (Aff _ fx fy) = Inf _.
Proof using Hm Hp H34 char2 Hgx Hgy Hone G HG.
  intros Hn H. unfold t_check in H.
  destruct (t_mul (Z.to_pos (n - 1))) as [[[X Y] Z]|] eqn:EP; [|discriminate].
  apply t_mul_rel in EP. destruct EP as (x & y & z & Hx & Hy & Hz & HJ). cbn [fst snd] in *.
  destruct (mul2 Z Z) as [zz|] eqn:E1; [|discriminate]. eapply mul2_rel in E1; [|eassumption|eassumption].
  destruct (mul2 Z zz) as [zzz|] eqn:E2; [|discriminate]. eapply mul2_rel in E2; [|eassumption|eassumption].
  destruct (mul2 gx zz) as [u|] eqn:E3; [|discriminate]. eapply mul2_rel in E3; [|eassumption|eassumption].
  destruct (mul2 gy zzz) as [s|] eqn:E4; [|discriminate]. eapply mul2_rel in E4; [|eassumption|eassumption].
  destruct (add2 s Y) as [s'|] eqn:E5; [|discriminate]. eapply add2_rel in E5; [|eassumption|eassumption].
  rewrite !andb_true_iff, negb_true_iff in H. destruct H as ((H1 & H2) & H3).
  assert (Hz0 : z <> q2 p 0 0) by (intros E; apply (v2_0 _ _ Hz) in E; congruence).
  apply (v2_eq _ _ _ _ Hx E3) in H2. apply (v2_0 _ _ E5) in H3.
  specialize (HJ Hz0). rewrite Z2Pos.id in HJ by lia.
  assert (EN : mulz (n - 1) (Aff _ fx fy) = neg (Aff _ fx fy)).
  { rewrite <- HJ. rewrite jac_ne by exact Hz0. cbn [pneg]. f_equal.
    - rewrite H2. field. exact Hz0.
    - replace y with (q2_opp (q2_mul fy (q2_mul z (q2_mul z z)))); [field; exact Hz0|].
      match type of H3 with q2_add ?t ?v = _ => transitivity (q2_sub (q2_add t v) t); [rewrite H3; ring|ring] end. }
  replace n with (n - 1 + 1) by lia.
  rewrite (zmul_add _ _ _ _ _ G), (zmul_1 _ _ _ _ _ G), EN by exact HG. apply (gneg_l _ _ _ _ _ G). exact HG.
Qed.
Theorem t_ne_ok n ax cx cy : 0 < n -> rel2 ax cx -> t_ne ax n = true -> Aff _ cx cy <> mulz n (Aff _ fx fy).
Proof using Hm Hp H34 char2 Hgx Hgy Hone G HG.
  intros Hn Ha H EQ. unfold t_ne in H.
  destruct (t_mul (Z.to_pos n)) as [[[X Y] Z]|] eqn:EP; [|discriminate].
  apply t_mul_rel in EP. destruct EP as (x & y & z & Hx & Hy & Hz & HJ). cbn [fst snd] in *.
  destruct (mul2 Z Z) as [zz|] eqn:E1; [|discriminate]. eapply mul2_rel in E1; [|eassumption|eassumption].
  destruct (mul2 ax zz) as [u|] eqn:E3; [|discriminate]. eapply mul2_rel in E3; [|eassumption|eassumption].
  rewrite !andb_true_iff, !negb_true_iff in H. destruct H as (H1 & H2).
  assert (Hz0 : z <> q2 p 0 0) by (intros E; apply (v2_0 _ _ Hz) in E; congruence).
  specialize (HJ Hz0). rewrite Z2Pos.id in HJ by lia. rewrite <- EQ in HJ. rewrite jac_ne in HJ by exact Hz0.
  assert (EX : x = q2_mul cx (q2_mul z z)).
  { assert (Q : q2_div x (q2_mul z z) = cx) by (inversion HJ; reflexivity). rewrite <- Q. field. exact Hz0. }
  rewrite <- EX in E3. destruct Hx as [Hx0 Hx1]. destruct E3 as [Hu0 Hu1].
  unfold v2, z2eq in H2. cbn [fst snd] in H2.
  rewrite (c_val_rel m _ _ Hx0), (c_val_rel m _ _ Hx1), (c_val_rel m _ _ Hu0), (c_val_rel m _ _ Hu1) in H2.
  rewrite !Z.eqb_refl in H2. discriminate.
Qed.
End Chain.
Section On.
Variable m : mctx.
Hypothesis Hm : mctx_ok m = true.
Hypothesis Hp : prime (mc_p m).
Hypothesis H34 : (mc_p m mod 4 = 3)%Z.
Lemma Kt' : field_theory (q2 (mc_p m) 0 0) (q2 (mc_p m) 1 0) q2_add q2_mul q2_sub q2_opp q2_div q2_inv eq.
Proof using Hp H34. exact (fp2_field _ Hp H34). Qed.
Add Field KFT' : Kt'.
Theorem t_on_ok gx gy b fx fy fb : rel2 m gx fx -> rel2 m gy fy -> rel2 m b fb -> t_on m gx gy b = true ->
  on_curve (fp2 (mc_p m)) q2_add q2_mul (q2 (mc_p m) 0 0) fb (Aff _ fx fy).
Proof using Hm Hp H34.
  intros Hx Hy Hb H. unfold t_on in H.
  destruct (mul2 m gy gy) as [yy|] eqn:E1; [|discriminate]. eapply mul2_rel in E1; [|exact Hm|eassumption|eassumption].
  destruct (mul2 m gx gx) as [xx|] eqn:E2; [|discriminate]. eapply mul2_rel in E2; [|exact Hm|eassumption|eassumption].
  destruct (mul2 m xx gx) as [xxx|] eqn:E3; [|discriminate]. eapply mul2_rel in E3; [|exact Hm|eassumption|eassumption].
  destruct (add2 xxx b) as [r|] eqn:E4; [|discriminate]. eapply add2_rel in E4; [|exact Hm|eassumption|eassumption].
  apply (v2_eq m Hm _ _ _ _ E1 E4) in H. cbn [on_curve]. rewrite H. ring.
Qed.
End On.
