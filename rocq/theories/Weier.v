(** The group law of a short Weierstrass curve y^2 = x^3 + a x + b over an
    arbitrary field, and a proof that it is an abelian group.

    This is specification, not a model of /repo: every curve of go-owcrypt
    except the Edwards curve (secp256k1, P-256, SM2, Pallas) is compared with
    the law defined here. *)
Require Import Ring Field.

Section Weierstrass.

Variable K : Type.
Variables (k0 k1 : K) (kadd kmul ksub : K -> K -> K) (kopp : K -> K)
          (kdiv : K -> K -> K) (kinv : K -> K).
Variable Kfield : field_theory k0 k1 kadd kmul ksub kopp kdiv kinv (@eq K).
Variable Kdec : forall x y : K, {x = y} + {x <> y}.
Variables ca cb : K.

Add Field KF : Kfield.

Declare Scope K_scope.
Delimit Scope K_scope with K.
Local Open Scope K_scope.
Notation "0" := k0 : K_scope.
Notation "1" := k1 : K_scope.
Infix "+" := kadd : K_scope.
Infix "*" := kmul : K_scope.
Infix "-" := ksub : K_scope.
Notation "- x" := (kopp x) : K_scope.
Infix "/" := kdiv : K_scope.
Notation "2" := (1 + 1) : K_scope.
Notation "3" := (1 + 1 + 1) : K_scope.

(** Points: infinity or an affine pair. *)
Inductive point : Type := Inf | Aff (x y : K).

Definition on_curve (P : point) : Prop :=
  match P with
  | Inf => True
  | Aff x y => y * y = x * x * x + ca * x + cb
  end.

Definition pneg (P : point) : point :=
  match P with
  | Inf => Inf
  | Aff x y => Aff x (- y)
  end.

(** The chord-and-tangent law. *)
Definition padd (P Q : point) : point :=
  match P, Q with
  | Inf, _ => Q
  | _, Inf => P
  | Aff x1 y1, Aff x2 y2 =>
      if Kdec x1 x2 then
        if Kdec y1 (- y2) then Inf
        else
          let l := (3 * (x1 * x1) + ca) / (2 * y1) in
          let x3 := l * l - 2 * x1 in
          Aff x3 (l * (x1 - x3) - y1)
      else
        let l := (y2 - y1) / (x2 - x1) in
        let x3 := l * l - x1 - x2 in
        Aff x3 (l * (x1 - x3) - y1)
  end.

Lemma point_dec (P Q : point) : {P = Q} + {P <> Q}.
Proof.
  destruct P as [|x y], Q as [|x' y'].
  - left; reflexivity.
  - right; discriminate.
  - right; discriminate.
  - destruct (Kdec x x') as [->|n].
    + destruct (Kdec y y') as [->|n].
      * left; reflexivity.
      * right; congruence.
    + right; congruence.
Defined.

(** Hypotheses on the curve: characteristic not 2, and no singular point. *)
Hypothesis char2 : 2 <> 0.
Hypothesis nonsing : forall x y, y * y = x * x * x + ca * x + cb ->
  2 * y = 0 -> 3 * (x * x) + ca = 0 -> False.

Lemma k_integral x y : x * y = 0 -> x = 0 \/ y = 0.
Proof.
  intros H. destruct (Kdec x 0) as [->|n]; [left; reflexivity|right].
  replace y with (x * y / x) by (field; assumption).
  rewrite H. field. assumption.
Qed.

Lemma k_sub0 x y : x - y = 0 -> x = y.
Proof. intros H. replace x with (x - y + y) by ring. rewrite H. ring. Qed.

Lemma k_sub_ne x y : x <> y -> x - y <> 0.
Proof. intros H E. apply H, k_sub0, E. Qed.

Lemma k_mul_ne x y : x <> 0 -> y <> 0 -> x * y <> 0.
Proof. intros Hx Hy E. destruct (k_integral _ _ E); auto. Qed.

Lemma k_cancel c x y : c <> 0 -> c * x = c * y -> x = y.
Proof.
  intros Hc E. apply k_sub0.
  destruct (k_integral c (x - y)) as [H|H]; [|contradiction|exact H].
  replace (c * (x - y)) with (c * x - c * y) by ring. rewrite E. ring.
Qed.

Lemma k_2y y : y = - y -> y = 0.
Proof.
  intros H. destruct (k_integral 2 y) as [E|E].
  - replace (2 * y) with (y + y) by ring. rewrite H at 1. ring.
  - contradiction.
  - exact E.
Qed.

(** [line P Q R l]: the line of slope [l] through P meets the curve in
    exactly P, Q, R (with multiplicity). *)
Definition line (x1 y1 x2 y2 x3 y3 l : K) : Prop :=
  y2 = y1 + l * (x2 - x1) /\
  y3 = y1 + l * (x3 - x1) /\
  x1 + x2 + x3 = l * l /\
  x1 * x2 + x1 * x3 + x2 * x3 = ca - 2 * l * (y1 - l * x1) /\
  x1 * x2 * x3 = (y1 - l * x1) * (y1 - l * x1) - cb.

Lemma line_swap12 x1 y1 x2 y2 x3 y3 l :
  line x1 y1 x2 y2 x3 y3 l -> line x2 y2 x1 y1 x3 y3 l.
Proof.
  intros (H1 & H2 & H3 & H4 & H5). unfold line. subst y2 y3.
  repeat split; try ring.
  - rewrite <- H3. ring.
  - transitivity (x1 * x2 + x1 * x3 + x2 * x3); [ring|]. rewrite H4. ring.
  - transitivity (x1 * x2 * x3); [ring|]. rewrite H5. ring.
Qed.

Lemma line_swap23 x1 y1 x2 y2 x3 y3 l :
  line x1 y1 x2 y2 x3 y3 l -> line x1 y1 x3 y3 x2 y2 l.
Proof.
  intros (H1 & H2 & H3 & H4 & H5). unfold line. subst y2 y3.
  repeat split; try ring.
  - rewrite <- H3. ring.
  - transitivity (x1 * x2 + x1 * x3 + x2 * x3); [ring|]. rewrite H4. ring.
  - transitivity (x1 * x2 * x3); [ring|]. rewrite H5. ring.
Qed.

Lemma line_neg x1 y1 x2 y2 x3 y3 l :
  line x1 y1 x2 y2 x3 y3 l -> line x1 (- y1) x2 (- y2) x3 (- y3) (- l).
Proof.
  intros (H1 & H2 & H3 & H4 & H5). unfold line. subst y2 y3.
  repeat split; try ring.
  - rewrite H3. ring.
  - rewrite H4. ring.
  - rewrite H5. ring.
Qed.

Lemma line_on1 x1 y1 x2 y2 x3 y3 l :
  line x1 y1 x2 y2 x3 y3 l -> on_curve (Aff x1 y1).
Proof.
  intros (H1 & H2 & H3 & H4 & H5). cbn.
  assert (Hb : cb = (y1 - l * x1) * (y1 - l * x1) - x1 * x2 * x3)
    by (rewrite H5; ring).
  assert (Ha : ca = x1 * x2 + x1 * x3 + x2 * x3 + 2 * l * (y1 - l * x1))
    by (rewrite H4; ring).
  rewrite Ha, Hb.
  replace x3 with (l * l - x1 - x2) by (rewrite <- H3; ring). ring.
Qed.

Lemma line_on3 x1 y1 x2 y2 x3 y3 l :
  line x1 y1 x2 y2 x3 y3 l -> on_curve (Aff x3 y3).
Proof.
  intros H. apply line_swap23 in H. apply line_swap12 in H.
  eapply line_on1; exact H.
Qed.

(** A finite double point with y = 0 would be singular. *)
Lemma line_no_sing x1 x2 l : line x1 0 x2 (l * (x2 - x1)) x1 0 l -> False.
Proof.
  intros H. pose proof (line_on1 _ _ _ _ _ _ _ H) as Hc. cbn in Hc.
  destruct H as (_ & _ & H3 & H4 & H5).
  apply (nonsing x1 0 Hc); [ring|].
  assert (Ha : ca = x1 * x2 + x1 * x1 + x2 * x1 + 2 * l * (0 - l * x1))
    by (rewrite H4; ring).
  rewrite Ha. replace x2 with (l * l - x1 - x1) by (rewrite <- H3; ring). ring.
Qed.

(** No line through P and -P. *)
Lemma line_not_opp x1 y1 x2 y2 l :
  line x1 y1 x2 y2 x1 (- y1) l -> False.
Proof.
  intros H.
  assert (Hy : y1 = 0).
  { destruct H as (_ & H2 & _). apply k_2y. symmetry.
    rewrite H2. ring. }
  assert (Hy2 : y2 = l * (x2 - x1)) by (destruct H as (H1 & _); rewrite H1, Hy; ring).
  subst y1. replace (- 0) with 0 in H by ring. subst y2.
  exact (line_no_sing _ _ _ H).
Qed.

(** Existence: finite P, Q with Q <> -P lie on a line, and padd gives the
    reflected third point. *)
Lemma line_exists x1 y1 x2 y2 :
  on_curve (Aff x1 y1) -> on_curve (Aff x2 y2) -> Aff x1 y1 <> pneg (Aff x2 y2) ->
  exists x3 y3 l, line x1 y1 x2 y2 x3 y3 l /\
    padd (Aff x1 y1) (Aff x2 y2) = Aff x3 (- y3).
Proof.
  cbn [on_curve pneg padd]. intros H1 H2 Hn.
  destruct (Kdec x1 x2) as [->|nx].
  - destruct (Kdec y1 (- y2)) as [->|ny]; [congruence|].
    assert (Ey : y1 = y2).
    { apply k_sub0. destruct (k_integral (y1 - y2) (y1 + y2)) as [E|E].
      - replace ((y1 - y2) * (y1 + y2)) with (y1 * y1 - y2 * y2) by ring.
        rewrite H1, H2. ring.
      - exact E.
      - exfalso. apply ny. apply k_sub0. rewrite <- E. ring. }
    subst y2. clear H2 Hn.
    assert (Hy : y1 <> 0) by (intros ->; apply ny; ring).
    set (l := (3 * (x2 * x2) + ca) / (2 * y1)).
    assert (Hl : ca = 2 * y1 * l - 3 * (x2 * x2)) by (unfold l; field; auto).
    exists (l * l - 2 * x2), (y1 + l * (l * l - 2 * x2 - x2)), l.
    split; [|f_equal; ring].
    unfold line. repeat split; try ring.
    + rewrite Hl. ring.
    + assert (Hb : cb = y1 * y1 - x2 * x2 * x2 - ca * x2) by (rewrite H1; ring).
      rewrite Hb, Hl. ring.
  - set (l := (y2 - y1) / (x2 - x1)).
    assert (nx' : x2 - x1 <> 0) by (apply k_sub_ne; auto).
    assert (Hl : y2 = y1 + l * (x2 - x1)) by (unfold l; field; auto).
    exists (l * l - x1 - x2), (y1 + l * (l * l - x1 - x2 - x1)), l.
    split; [|f_equal; ring].
    assert (Ha : ca = l * (y1 + y2) - x1 * x1 - x1 * x2 - x2 * x2).
    { apply (k_cancel (x2 - x1) _ _ nx').
      replace ((x2 - x1) * ca)
        with ((y2 * y2 - x2 * x2 * x2 - cb) - (y1 * y1 - x1 * x1 * x1 - cb))
        by (rewrite H1, H2; ring).
      rewrite Hl. ring. }
    assert (Hb : cb = y1 * y1 - x1 * x1 * x1 - ca * x1) by (rewrite H1; ring).
    unfold line. repeat split; try ring; try exact Hl.
    + rewrite Ha, Hl. ring.
    + rewrite Hb, Ha, Hl. ring.
Qed.

(** Uniqueness of the line. *)
Lemma line_unique x1 y1 x2 y2 x3 y3 l x3' y3' l' :
  Aff x1 y1 <> pneg (Aff x2 y2) ->
  line x1 y1 x2 y2 x3 y3 l -> line x1 y1 x2 y2 x3' y3' l' ->
  x3 = x3' /\ y3 = y3' /\ l = l'.
Proof.
  intros Hn (H1 & H2 & H3 & H4 & H5) (H1' & H2' & H3' & H4' & H5').
  assert (El : l = l').
  { destruct (Kdec x1 x2) as [->|nx].
    - assert (Ey : y2 = y1) by (rewrite H1; ring). subst y2.
      assert (Hy : y1 <> 0).
      { intros ->. apply Hn. cbn. f_equal. ring. }
      apply (k_cancel (2 * y1)); [apply k_mul_ne; auto|].
      assert (E : forall x m, x2 + x2 + x = m * m ->
                 x2 * x2 + x2 * x + x2 * x = ca - 2 * m * (y1 - m * x2) ->
                 2 * y1 * m = 3 * (x2 * x2) + ca).
      { intros x m Hs Hp. replace ca with (x2 * x2 + x2 * x + x2 * x + 2 * m * (y1 - m * x2))
          by (rewrite Hp; ring).
        replace x with (m * m - x2 - x2) by (rewrite <- Hs; ring). ring. }
      rewrite (E _ _ H3 H4), (E _ _ H3' H4'). reflexivity.
    - apply (k_cancel (x2 - x1)); [apply k_sub_ne; auto|].
      replace ((x2 - x1) * l) with (y2 - y1) by (rewrite H1; ring).
      rewrite H1'. ring. }
  subst l'.
  assert (x3 = x3').
  { replace x3 with (l * l - x1 - x2) by (rewrite <- H3; ring).
    rewrite <- H3'. ring. }
  subst x3'. split; [reflexivity|split; [congruence|reflexivity]].
Qed.

(** padd computed from any line. *)
Lemma padd_line x1 y1 x2 y2 x3 y3 l :
  Aff x1 y1 <> pneg (Aff x2 y2) ->
  line x1 y1 x2 y2 x3 y3 l ->
  padd (Aff x1 y1) (Aff x2 y2) = Aff x3 (- y3).
Proof.
  intros Hn Hl.
  destruct (line_exists x1 y1 x2 y2) as (x & y & m & Hm & E).
  - eapply line_on1; exact Hl.
  - eapply line_on1. apply line_swap12. exact Hl.
  - exact Hn.
  - destruct (line_unique _ _ _ _ _ _ _ _ _ _ Hn Hl Hm) as (-> & -> & _).
    exact E.
Qed.

Lemma kopp_opp x : - - x = x.
Proof. ring. Qed.

Lemma pneg_pneg P : pneg (pneg P) = P.
Proof. destruct P; cbn; rewrite ?kopp_opp; reflexivity. Qed.

Lemma pneg_on P : on_curve P -> on_curve (pneg P).
Proof. destruct P as [|x y]; cbn; auto. intros <-. ring. Qed.

Lemma padd_0_l P : padd Inf P = P.
Proof. reflexivity. Qed.

Lemma padd_0_r P : padd P Inf = P.
Proof. destruct P; reflexivity. Qed.

Lemma padd_neg_r P : padd P (pneg P) = Inf.
Proof.
  destruct P as [|x y]; cbn; [reflexivity|].
  destruct (Kdec x x); [|congruence].
  rewrite kopp_opp. destruct (Kdec y y); congruence.
Qed.

Lemma padd_neg_l P : padd (pneg P) P = Inf.
Proof. rewrite <- (pneg_pneg P) at 2. apply padd_neg_r. Qed.

Lemma padd_opp P Q : P = pneg Q -> padd P Q = Inf.
Proof. intros ->. apply padd_neg_l. Qed.

Lemma padd_on P Q : on_curve P -> on_curve Q -> on_curve (padd P Q).
Proof.
  intros HP HQ. destruct (point_dec P (pneg Q)) as [->|n].
  { rewrite padd_neg_l. exact I. }
  destruct P as [|x1 y1]; [exact HQ|].
  destruct Q as [|x2 y2]; [exact HP|].
  destruct (line_exists _ _ _ _ HP HQ n) as (x3 & y3 & l & Hl & ->).
  change (Aff x3 (- y3)) with (pneg (Aff x3 y3)).
  apply pneg_on. eapply line_on3; exact Hl.
Qed.

Lemma pneg_eq_swap P Q : P = pneg Q -> Q = pneg P.
Proof. intros ->. symmetry. apply pneg_pneg. Qed.

Lemma padd_comm P Q : on_curve P -> on_curve Q -> padd P Q = padd Q P.
Proof.
  intros HP HQ. destruct (point_dec P (pneg Q)) as [->|n].
  { rewrite padd_neg_l, padd_neg_r. reflexivity. }
  destruct P as [|x1 y1]; [rewrite padd_0_r; reflexivity|].
  destruct Q as [|x2 y2]; [reflexivity|].
  destruct (line_exists _ _ _ _ HP HQ n) as (x3 & y3 & l & Hl & ->).
  symmetry. eapply padd_line.
  - intros E. apply n. apply pneg_eq_swap. exact E.
  - apply line_swap12. exact Hl.
Qed.

(** Cancellation: -B + (B + C) = C. *)
Lemma padd_cancel B C : on_curve B -> on_curve C -> padd (pneg B) (padd B C) = C.
Proof.
  intros HB HC. destruct (point_dec B (pneg C)) as [->|n].
  { rewrite padd_neg_l, padd_0_r, pneg_pneg. reflexivity. }
  destruct B as [|xb yb]; [reflexivity|].
  destruct C as [|xc yc]; [rewrite padd_0_r; apply padd_neg_l|].
  destruct (line_exists _ _ _ _ HB HC n) as (x3 & y3 & l & Hl & ->).
  cbn [pneg]. apply line_swap23 in Hl.
  rewrite (padd_line xb (- yb) x3 (- y3) xc (- yc) (- l)).
  - rewrite kopp_opp. reflexivity.
  - cbn. rewrite kopp_opp. intros E. injection E as Ex Ey. subst x3 y3.
    apply line_swap23 in Hl. eapply line_not_opp; exact Hl.
  - apply line_neg. exact Hl.
Qed.

Lemma padd_zero_iff P Q : padd P Q = Inf -> P = pneg Q.
Proof.
  destruct P as [|x1 y1], Q as [|x2 y2]; cbn; try congruence.
  destruct (Kdec x1 x2) as [->|]; [|discriminate].
  destruct (Kdec y1 (- y2)) as [->|]; [reflexivity|discriminate].
Qed.

(** The heart of associativity: two different lines through B. *)
Lemma line_assoc xa ya xb yb xc yc xd yd xe ye l1 l2 :
  line xa ya xb yb xd yd l1 -> line xb yb xc yc xe ye l2 -> l1 <> l2 ->
  exists xs ys m n,
    line xd (- yd) xc yc xs ys m /\ line xa ya xe (- ye) xs ys n.
Proof.
  intros H1 H2 Hne.
  destruct H1 as (A1 & A2 & A3 & A4 & A5).
  destruct H2 as (B1 & B2 & B3 & B4 & B5).
  assert (Hm : l2 - l1 <> 0) by (apply k_sub_ne; auto).
  set (m := l2 - l1) in *.
  set (g := (xc - xa) / m).
  assert (Hg : xc = xa + m * g) by (unfold g; field; exact Hm).
  assert (El2 : l2 = l1 + m) by (unfold m; ring).
  assert (Exb : xb = l1 * l1 - xa - xd) by (rewrite <- A3; ring).
  assert (Eyb : yb = ya + l1 * (xb - xa)) by exact A1.
  assert (Exe : xe = l2 * l2 - xb - xc) by (rewrite <- B3; ring).
  assert (Ha : ca = xa * xb + xa * xd + xb * xd + 2 * l1 * (ya - l1 * xa))
    by (rewrite A4; ring).
  assert (Hb : cb = (ya - l1 * xa) * (ya - l1 * xa) - xa * xb * xd)
    by (rewrite A5; ring).
  (* the relation: C lies on the curve, written with m <> 0 divided out *)
  assert (R : 2 * yb = (xc - xd) * g - m * (xc - xb) - 2 * l1 * (xc - xb)).
  { apply (k_cancel m _ _ Hm).
    assert (E : ca = xb * xc + xb * xe + xc * xe + 2 * l2 * (yb - l2 * xb))
      by (rewrite B4; ring).
    rewrite Ha in E.
    assert (Eya : ya = yb - l1 * (xb - xa)) by (rewrite Eyb; ring).
    rewrite Eya in E. rewrite Exe in E.
    replace (m * (2 * yb)) with
      ((xb * xc + xb * (l2 * l2 - xb - xc) + xc * (l2 * l2 - xb - xc) + 2 * l2 * (yb - l2 * xb))
       - (xb * xc + xb * (l2 * l2 - xb - xc) + xc * (l2 * l2 - xb - xc) + 2 * l1 * yb - 2 * l2 * l2 * xb))
      by (unfold m; ring).
    rewrite <- E.
    assert (Emg : m * g = xc - xa) by (rewrite Hg; ring).
    replace (m * ((xc - xd) * g - m * (xc - xb) - 2 * l1 * (xc - xb)))
      with ((xc - xd) * (m * g) - m * m * (xc - xb) - 2 * l1 * m * (xc - xb)) by ring.
    rewrite Emg, El2.
    assert (Exd : xd = l1 * l1 - xa - xb) by (rewrite Exb; ring).
    rewrite Exd. ring. }
  exists (g * (g - (2 * l1 + m)) + xb).
  set (xs := g * (g - (2 * l1 + m)) + xb).
  exists (yc + (g - l1) * (xs - xc)), (g - l1), (g - l1 - m).
  assert (Eyc : yc = yb + l2 * (xc - xb)) by exact B1.
  assert (Eye : ye = yb + l2 * (xe - xb)) by exact B2.
  assert (Eyd : yd = yb + l1 * (xd - xb)) by (rewrite A2, Eyb; ring).
  assert (Eya : ya = yb - l1 * (xb - xa)) by (rewrite Eyb; ring).
  assert (Y : yb = ((xc - xd) * g - m * (xc - xb) - 2 * l1 * (xc - xb)) / 2)
    by (rewrite <- R; field; exact char2).
  clear A1 A2 A3 A4 A5 B1 B2 B3 B4 B5 R Eyb.
  clearbody m g. unfold xs, line.
  rewrite Hb, Ha, Eyc, Eye, Eyd, Eya, Y, Exe, El2, Hg, Exb.
  split; repeat split; field; exact char2.
Qed.

(** Two finite points on the same nonvertical line with equal abscissa are
    equal; used when the two lines coincide. *)
Lemma line_same xa ya xb yb xc yc xd yd xe ye l :
  line xa ya xb yb xd yd l -> line xb yb xc yc xe ye l ->
  (xa = xc /\ ya = yc /\ xd = xe /\ yd = ye) \/
  (xa = xe /\ ya = ye /\ xd = xc /\ yd = yc).
Proof.
  intros (A1 & A2 & A3 & A4 & A5) (B1 & B2 & B3 & B4 & B5).
  assert (S : xa + xd = xc + xe).
  { replace (xa + xd) with (xa + xb + xd - xb) by ring.
    rewrite A3, <- B3. ring. }
  assert (P : (xa - xc) * (xa - xe) = 0).
  { assert (E : xa * xb + xa * xd + xb * xd = xb * xc + xb * xe + xc * xe).
    { rewrite A4, B4, A1. ring. }
    assert (E2 : xa * xd = xc * xe).
    { replace (xa * xd) with (xa * xb + xa * xd + xb * xd - xb * (xa + xd)) by ring.
      rewrite E, S. ring. }
    replace ((xa - xc) * (xa - xe)) with (xa * xa - xa * (xc + xe) + xc * xe) by ring.
    rewrite <- S, <- E2. ring. }
  assert (Ya : forall x y, y = yb + l * (x - xb) -> x = xa -> y = ya).
  { intros x y -> ->. rewrite A1. ring. }
  assert (Yd : forall x y, y = yb + l * (x - xb) -> x = xd -> y = yd).
  { intros x y -> ->. rewrite A1, A2. ring. }
  destruct (k_integral _ _ P) as [E|E]; apply k_sub0 in E.
  - left. assert (Ed : xe = xd).
    { replace xe with (xc + xe - xc) by ring. rewrite <- S, E. ring. }
    repeat split; auto.
    + symmetry. apply (Ya xc); auto.
    + symmetry. apply (Yd xe); auto.
  - right. assert (Ed : xc = xd).
    { replace xc with (xc + xe - xe) by ring. rewrite <- S, E. ring. }
    repeat split; auto.
    + symmetry. apply (Ya xe); auto.
    + symmetry. apply (Yd xc); auto.
Qed.

Lemma line_sum_zero xa ya xb yb xc yc l :
  line xa ya xb yb xc yc l ->
  padd (Aff xb yb) (Aff xc yc) = pneg (Aff xa ya).
Proof.
  intros H. cbn [pneg].
  apply line_swap12, line_swap23 in H.
  eapply padd_line; [|exact H].
  cbn. intros E. injection E as -> ->.
  (* line through C and -C *)
  apply line_swap12 in H.
  apply line_swap23 in H. eapply line_not_opp; exact H.
Qed.

Theorem padd_assoc A B C : on_curve A -> on_curve B -> on_curve C ->
  padd A (padd B C) = padd (padd A B) C.
Proof.
  intros HA HB HC.
  destruct A as [|xa ya]; [reflexivity|].
  destruct B as [|xb yb]; [rewrite padd_0_r; reflexivity|].
  destruct C as [|xc yc]; [rewrite !padd_0_r; reflexivity|].
  destruct (point_dec (Aff xa ya) (pneg (Aff xb yb))) as [E|nab].
  { rewrite E, padd_neg_l. rewrite padd_cancel by assumption. reflexivity. }
  destruct (point_dec (Aff xb yb) (pneg (Aff xc yc))) as [E|nbc].
  { rewrite E at 1. rewrite padd_neg_l, padd_0_r.
    rewrite (padd_comm (padd _ _)) by (try apply padd_on; assumption).
    rewrite (padd_comm (Aff xa ya)) by assumption.
    apply pneg_eq_swap in E. rewrite E.
    rewrite padd_cancel by assumption. reflexivity. }
  destruct (line_exists _ _ _ _ HA HB nab) as (xd & yd & l1 & L1 & E1).
  destruct (line_exists _ _ _ _ HB HC nbc) as (xe & ye & l2 & L2 & E2).
  rewrite E1, E2.
  destruct (Kdec l1 l2) as [<-|nl].
  - destruct (line_same _ _ _ _ _ _ _ _ _ _ _ L1 L2)
      as [(-> & -> & -> & ->)|(-> & -> & -> & ->)].
    + apply padd_comm; [exact HC|].
      change (Aff xe (- ye)) with (pneg (Aff xe ye)).
      apply pneg_on. eapply line_on3; exact L1.
    + rewrite (padd_opp (Aff xe ye)) by (cbn; rewrite kopp_opp; reflexivity).
      rewrite (padd_opp (Aff xc (- yc))) by reflexivity. reflexivity.
  - destruct (line_assoc _ _ _ _ _ _ _ _ _ _ _ _ L1 L2 nl)
      as (xs & ys & m & n & M & N).
    destruct (point_dec (Aff xa ya) (pneg (Aff xe (- ye)))) as [E|na].
    { cbn in E. rewrite kopp_opp in E. injection E as -> ->. exfalso.
      apply line_swap23 in N.
      eapply line_not_opp. exact N. }
    destruct (point_dec (Aff xd (- yd)) (pneg (Aff xc yc))) as [E|nd].
    { cbn in E. injection E as -> E. exfalso.
      assert (yd = yc) by (rewrite <- (kopp_opp yd), E, kopp_opp; reflexivity).
      subst yd. apply line_swap12, line_swap23 in M.
      eapply line_not_opp. exact M. }
    rewrite (padd_line _ _ _ _ _ _ _ na N).
    rewrite (padd_line _ _ _ _ _ _ _ nd M). reflexivity.
Qed.

End Weierstrass.
