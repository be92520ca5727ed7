(** Every point of a curve with a base point of large prime order n and no
    point of order two is killed by n: three disjoint cosets would not fit
    into the 2p+1 available encodings.  Mathematics only. *)
From Coq Require Import ZArith List Lia Znumtheory Uint63 Ring Field Bool.
From Verif Require Import Base Fp Mont63 Weier Jac Group EC Primes OrderCheck Curves.
Import ListNotations.
Local Open Scope Z_scope.

(** ** Pigeonhole on initial segments of Z *)
Lemma pigeon (F : Z -> Z) A B : 0 <= A -> 0 <= B ->
  (forall i, 0 <= i < A -> 0 <= F i < B) ->
  (forall i j, 0 <= i < A -> 0 <= j < A -> F i = F j -> i = j) -> A <= B.
Proof.
  intros HA HB HF HI.
  set (f := fun i : nat => Z.to_nat (F (Z.of_nat i))).
  assert (ND : NoDup (map f (seq 0 (Z.to_nat A)))).
  { assert (G : forall l, NoDup l -> (forall x, In x l -> (x < Z.to_nat A)%nat) -> NoDup (map f l)).
    { induction l as [|x l IH]; intros N H; [constructor|]. inversion N as [|? ? Nx Nl]. subst.
      cbn [map]. constructor.
      - intros Hin. apply in_map_iff in Hin. destruct Hin as (y & E & Hy). apply Nx.
        assert (Bx := H x (or_introl eq_refl)). assert (By := H y (or_intror Hy)).
        assert (Z.of_nat y = Z.of_nat x) as Exy.
        { apply HI; [lia|lia|]. unfold f in E.
          pose proof (HF (Z.of_nat x) ltac:(lia)). pose proof (HF (Z.of_nat y) ltac:(lia)). lia. }
        apply Nat2Z.inj in Exy. subst y. exact Hy.
      - apply IH; [exact Nl|]. intros y Hy. apply H. right. exact Hy. }
    apply G; [apply seq_NoDup|]. intros x Hx. apply in_seq in Hx. lia. }
  assert (IN : incl (map f (seq 0 (Z.to_nat A))) (seq 0 (Z.to_nat B))).
  { intros y Hy. apply in_map_iff in Hy. destruct Hy as (x & <- & Hx). apply in_seq in Hx. apply in_seq.
    unfold f. pose proof (HF (Z.of_nat x) ltac:(lia)). lia. }
  pose proof (NoDup_incl_length ND IN) as HL. rewrite map_length, !seq_length in HL. lia.
Qed.

Section AllOrder.
Variable c : wcurve.
Hypothesis Hv : w_valid c.
Hypothesis Hbig : 2 * w_p c + 1 < 3 * w_n c.
Local Notation p := (w_p c).
Local Notation n := (w_n c).
(** x^3 + a x + b has no root in the field. *)
Definition no_root : Prop := forall x : fp p,
  fp_add (fp_add (fp_mul (fp_mul x x) x) (fp_mul (fp_of p (w_a c)) x)) (fp_of p (w_b c)) <> fp_of p 0.
Hypothesis Hroot : no_root.
Let Hf := wv_field c Hv.
Let Hp := wv_prime c Hf.
Lemma Kfa : field_theory (fp_of p 0) (fp_of p 1) fp_add fp_mul fp_sub fp_opp fp_div fp_inv eq.
Proof. exact (fp_field _ Hp). Qed.
Add Field KFA : Kfa.
Let HW := w_group c Hf.

Definition enc (P : pt c) : Z :=
  match P with Inf _ => 2 * p | Aff _ x y => 2 * fval x + fval y mod 2 end.

Lemma p_pos : 2 < p. Proof. exact (wv_odd c Hf). Qed.
Lemma p_odd : p mod 2 = 1.
Proof.
  pose proof p_pos as H2. pose proof (Z.mod_pos_bound p 2 eq_refl).
  destruct (Z.eq_dec (p mod 2) 0) as [E|E]; [|lia]. exfalso.
  apply Z.mod_divide in E; [|discriminate].
  destruct (prime_divisors p Hp 2 E) as [D|[D|[D|D]]]; lia.
Qed.

Lemma enc_range P : 0 <= enc P < 2 * p + 1.
Proof.
  pose proof p_pos. destruct P as [|x y]; cbn [enc]; [lia|].
  pose proof (fval_bound p x ltac:(lia)). pose proof (Z.mod_pos_bound (fval y) 2 eq_refl). lia.
Qed.

Lemma y_ne0 x y : w_on c (Aff _ x y) -> y <> fp_of p 0.
Proof.
  intros H ->. cbn in H. apply (Hroot x). rewrite <- H. ring.
Qed.

Lemma sq_eq (y y' : fp p) : fp_mul y y = fp_mul y' y' -> y = y' \/ y = fp_opp y'.
Proof.
  intros E.
  assert (Z0 : fp_mul (fp_sub y y') (fp_add y y') = fp_of p 0).
  { transitivity (fp_sub (fp_mul y y) (fp_mul y' y')); [ring|]. rewrite E. ring. }
  destruct (k_integral _ _ _ _ _ _ _ _ _ Kfa fp_dec _ _ Z0) as [H|H].
  - left. transitivity (fp_add (fp_sub y y') y'); [ring|]. rewrite H. ring.
  - right. transitivity (fp_sub (fp_add y y') y'); [ring|]. rewrite H. ring.
Qed.

Lemma enc_inj P Q : w_on c P -> w_on c Q -> enc P = enc Q -> P = Q.
Proof.
  pose proof p_pos as H2.
  intros HP HQ. destruct P as [|x y], Q as [|x' y']; cbn [enc]; intros E.
  - reflexivity.
  - pose proof (fval_bound p x' ltac:(lia)). pose proof (Z.mod_pos_bound (fval y') 2 eq_refl). lia.
  - pose proof (fval_bound p x ltac:(lia)). pose proof (Z.mod_pos_bound (fval y) 2 eq_refl). lia.
  - pose proof (Z.mod_pos_bound (fval y') 2 eq_refl). pose proof (Z.mod_pos_bound (fval y) 2 eq_refl).
    assert (Ex : fval x = fval x') by lia. assert (Ey : fval y mod 2 = fval y' mod 2) by lia.
    apply fp_eq in Ex. subst x'. f_equal.
    assert (Es : fp_mul y y = fp_mul y' y') by (cbn in HP, HQ; congruence).
    destruct (sq_eq _ _ Es) as [Eq|Eq]; [exact Eq|]. exfalso.
    pose proof (y_ne0 _ _ HQ) as Ny.
    assert (fval y' <> 0). { intros Z0. apply Ny. apply fp_eq. rewrite Z0. reflexivity. }
    pose proof (fval_bound p y' ltac:(lia)) as By.
    assert (Ev : fval y = p - fval y').
    { rewrite Eq. unfold fp_opp. rewrite fval_of. symmetry. apply (Z.mod_unique _ _ (-1)); lia. }
    rewrite Ev in Ey. pose proof p_odd as Op.
    rewrite Zminus_mod, Op in Ey. pose proof (Z.mod_pos_bound (fval y') 2 eq_refl).
    assert (C : fval y' mod 2 = 0 \/ fval y' mod 2 = 1) by lia.
    destruct C as [C|C]; rewrite C in Ey; discriminate.
Qed.

Lemma no_two_torsion Q : w_on c Q -> w_add c Q Q = pinf c -> Q = pinf c.
Proof.
  intros HQ E. destruct Q as [|x y]; [reflexivity|]. exfalso.
  pose proof (y_ne0 _ _ HQ) as Ny. apply Ny.
  unfold w_add, pinf in E. apply padd_zero_iff in E.
  injection E as E. exact (k_2y _ _ _ _ _ _ _ _ _ Kfa fp_dec (w_char2 c Hf) y E).
Qed.

Theorem all_order P : w_on c P -> w_mul c n P = pinf c.
Proof.
  intros HP. destruct (point_dec _ fp_dec (w_mul c n P) (pinf c)) as [E|NE]; [exact E|exfalso].
  pose proof (wv_Gon c Hv) as HG. pose proof (wv_nG c Hv) as HnG. pose proof (wv_nprime c Hv) as Hn.
  assert (Hn2 := prime_ge_2 _ Hn).
  assert (NG : w_G c <> pinf c) by discriminate.
  set (F := fun i => enc (if i <? n then w_mul c i (w_G c)
                          else if i <? 2 * n then w_add c P (w_mul c (i - n) (w_G c))
                          else w_add c (w_neg c P) (w_mul c (i - 2 * n) (w_G c)))).
  assert (MG : forall k, w_on c (w_mul c k (w_G c))) by (intros; apply (zmul_ok _ _ _ _ _ HW); exact HG).
  assert (ON : forall Q k, w_on c Q -> w_on c (w_add c Q (w_mul c k (w_G c)))).
  { intros Q k HQ. apply (g_add _ _ _ _ _ HW); auto. }
  assert (NegP : w_on c (w_neg c P)) by (apply (g_neg _ _ _ _ _ HW), HP).
  assert (KG : forall k, w_mul c n (w_mul c k (w_G c)) = pinf c).
  { intros k. unfold w_mul. rewrite <- (zmul_mul _ _ _ _ _ HW) by exact HG. rewrite Z.mul_comm.
    rewrite (zmul_mul _ _ _ _ _ HW) by exact HG. fold (w_mul c n (w_G c)). rewrite HnG.
    apply (zmul_zero _ _ _ _ _ HW). }
  (* n (Q + kG) = n Q *)
  assert (NQ : forall Q k, w_on c Q -> w_mul c n (w_add c Q (w_mul c k (w_G c))) = w_mul c n Q).
  { intros Q k HQ. unfold w_mul at 1. rewrite (zmul_padd _ _ _ _ _ HW) by auto.
    fold (w_mul c n (w_mul c k (w_G c))). rewrite KG. apply (gadd_0_r _ _ _ _ _ HW).
    apply (zmul_ok _ _ _ _ _ HW), HQ. }
  assert (NN : w_mul c n (w_neg c P) = w_neg c (w_mul c n P)).
  { apply (zmul_negp _ _ _ _ _ HW), HP. }
  assert (ONP : w_on c (w_mul c n P)) by (apply (zmul_ok _ _ _ _ _ HW), HP).
  assert (D1 : w_mul c n P <> w_neg c (w_mul c n P)).
  { intros E. apply NE. apply no_two_torsion; [exact ONP|].
    rewrite E at 2. apply (g_inv _ _ _ _ _ HW), ONP. }
  assert (D2 : w_neg c (w_mul c n P) <> pinf c).
  { intros E. apply NE. rewrite <- (gneg_neg _ _ _ _ _ HW _ ONP). rewrite E.
    apply (gneg_zero _ _ _ _ _ HW). }
  assert (INJ : forall Q j k, w_on c Q -> 0 <= j < n -> 0 <= k < n ->
    w_add c Q (w_mul c j (w_G c)) = w_add c Q (w_mul c k (w_G c)) -> j = k).
  { intros Q j k HQ Hj Hk E. apply (gcancel _ _ _ _ _ HW) in E; auto.
    apply (zmul_inj _ _ _ _ _ HW n) in E; auto. rewrite !Z.mod_small in E by lia. exact E. }
  assert (L : 3 * n <= 2 * p + 1).
  { apply (pigeon F).
    - lia.
    - pose proof p_pos. lia.
    - intros i Hi. apply enc_range.
    - intros i j Hi Hj E. unfold F in E.
      apply enc_inj in E;
        [|destruct (i <? n); [apply MG|destruct (i <? 2 * n); apply ON; assumption]
         |destruct (j <? n); [apply MG|destruct (j <? 2 * n); apply ON; assumption]].
      assert (En := f_equal (w_mul c n) E).
      destruct (Z.ltb_spec i n); destruct (Z.ltb_spec j n).
      + apply (zmul_inj _ _ _ _ _ HW n) in E; auto. rewrite !Z.mod_small in E by lia. exact E.
      + exfalso. rewrite KG in En. destruct (j <? 2 * n); rewrite NQ in En by assumption.
        * apply NE. symmetry. exact En.
        * apply D2. rewrite <- NN. symmetry. exact En.
      + exfalso. rewrite KG in En. destruct (i <? 2 * n); rewrite NQ in En by assumption.
        * apply NE. exact En.
        * apply D2. rewrite <- NN. exact En.
      + destruct (Z.ltb_spec i (2 * n)); destruct (Z.ltb_spec j (2 * n)).
        * apply INJ in E; auto; lia.
        * exfalso. rewrite !NQ in En by assumption. rewrite NN in En. exact (D1 En).
        * exfalso. rewrite !NQ in En by assumption. rewrite NN in En. apply D1. symmetry. exact En.
        * apply INJ in E; auto; lia. }
  revert L. clear - Hbig. lia.
Qed.
End AllOrder.

(** ** Certificates that the cubic has no root *)
Section Root.
Variable m : mctx.
Variables la lb : list int.
Local Notation mul := (c_mul m).
Local Notation sub := (c_sub m).
Definition poly : Type := list int * list int * list int.
(** Product modulo x^3 + a x + b. *)
Definition q_mul (f g : poly) : option poly :=
  let '(f0, f1, f2) := f in let '(g0, g1, g2) := g in
  do c0 <- mul f0 g0;
  do t1 <- mul f0 g1; do t2 <- mul f1 g0; do c1 <- madd t1 t2;
  do t3 <- mul f0 g2; do t4 <- mul f1 g1; do t5 <- mul f2 g0; do t6 <- madd t3 t4; do c2 <- madd t6 t5;
  do t7 <- mul f1 g2; do t8 <- mul f2 g1; do c3 <- madd t7 t8;
  do c4 <- mul f2 g2;
  do b3 <- mul lb c3; do a3 <- mul la c3; do b4 <- mul lb c4; do a4 <- mul la c4;
  do r0 <- sub c0 b3;
  do s1 <- sub c1 a3; do r1 <- sub s1 b4;
  do r2 <- sub c2 a4;
  Some (r0, r1, r2).
Definition q_x : poly := (c_of m 0, c_of m 1, c_of m 0).
Fixpoint q_pow (e : positive) : option poly :=
  match e with
  | xH => Some q_x
  | xO e' => do f <- q_pow e'; q_mul f f
  | xI e' => do f <- q_pow e'; do g <- q_mul f f; q_mul g q_x
  end.
(** x^p - x is invertible modulo the cubic, with inverse u. *)
Definition q_check (p u0 u1 u2 : Z) : bool :=
  match (do h <- q_pow (Z.to_pos p);
         let '(h0, h1, h2) := h in
         do h1' <- sub h1 (c_of m 1);
         do r <- q_mul (c_of m u0, c_of m u1, c_of m u2) (h0, h1', h2);
         let '(r0, r1, r2) := r in
         Some ((c_val m r0 =? 1) && (c_val m r1 =? 0) && (c_val m r2 =? 0)))
  with Some b => b | None => false end.

Variable c : wcurve.
Hypothesis Hm : mctx_ok m = true.
Hypothesis Hmp : mc_p m = w_p c.
Hypothesis Hprime : prime (w_p c).
Hypothesis Hla : mrel m la (fp_of (mc_p m) (w_a c)).
Hypothesis Hlb : mrel m lb (fp_of (mc_p m) (w_b c)).
Local Notation p := (w_p c).
Lemma Kfr : field_theory (fp_of p 0) (fp_of p 1) fp_add fp_mul fp_sub fp_opp fp_div fp_inv eq.
Proof. exact (fp_field _ Hprime). Qed.
Add Field KFR : Kfr.

Variable x : fp p.
Hypothesis Hx : fp_add (fp_add (fp_mul (fp_mul x x) x) (fp_mul (fp_of p (w_a c)) x)) (fp_of p (w_b c)) = fp_of p 0.

(** The limbs represent a polynomial whose value at x is v. *)
Definition prel (f : poly) (v : fp p) : Prop :=
  exists y0 y1 y2 : Z,
    mrel m (fst (fst f)) (fp_of _ y0) /\ mrel m (snd (fst f)) (fp_of _ y1) /\ mrel m (snd f) (fp_of _ y2) /\
    v = fp_add (fp_of p y0) (fp_add (fp_mul (fp_of p y1) x) (fp_mul (fp_of p y2) (fp_mul x x))).

Ltac pstep H :=
  match type of H with
  | (match ?e with Some _ => _ | None => None end) = Some _ =>
      let E := fresh "E" in let v := fresh "v" in
      destruct e as [v|] eqn:E; [|discriminate H];
      first [ eapply (mul_z m Hm) in E; [|eassumption|eassumption]
            | eapply (sub_z m Hm) in E; [|eassumption|eassumption]
            | eapply (add_z m) in E; [|eassumption|eassumption] ]
  end.
Lemma cube : fp_mul (fp_mul x x) x = fp_sub (fp_opp (fp_mul (fp_of p (w_a c)) x)) (fp_of p (w_b c)).
Proof.
  transitivity (fp_sub (fp_add (fp_add (fp_mul (fp_mul x x) x) (fp_mul (fp_of p (w_a c)) x)) (fp_of p (w_b c)))
    (fp_add (fp_mul (fp_of p (w_a c)) x) (fp_of p (w_b c)))); [ring|]. rewrite Hx. ring.
Qed.
Lemma q_mul_rel f g vf vg r : prel f vf -> prel g vg -> q_mul f g = Some r -> prel r (fp_mul vf vg).
Proof.
  destruct f as [[f0 f1] f2], g as [[g0 g1] g2].
  intros (a0 & a1 & a2 & A0 & A1 & A2 & ->) (b0 & b1 & b2 & B0 & B1 & B2 & ->) H. cbn [fst snd] in *.
  unfold q_mul in H. repeat pstep H. injection H as <-.
  eexists _, _, _. cbn [fst snd]. split; [eassumption|]. split; [eassumption|]. split; [eassumption|].
  pose proof cube as CU. clear - CU Hprime. autorewrite with fpz.
  set (fa := fp_of p (w_a c)) in *. set (fb := fp_of p (w_b c)) in *.
  set (A0 := fp_of p a0). set (A1 := fp_of p a1). set (A2 := fp_of p a2).
  set (B0 := fp_of p b0). set (B1 := fp_of p b1). set (B2 := fp_of p b2).
  clearbody fa fb A0 A1 A2 B0 B1 B2.
  transitivity (fp_add (fp_add (fp_mul A0 B0) (fp_add (fp_mul (fp_add (fp_mul A0 B1) (fp_mul A1 B0)) x)
      (fp_mul (fp_add (fp_add (fp_mul A0 B2) (fp_mul A1 B1)) (fp_mul A2 B0)) (fp_mul x x))))
    (fp_add (fp_mul (fp_add (fp_mul A1 B2) (fp_mul A2 B1)) (fp_mul (fp_mul x x) x))
            (fp_mul (fp_mul A2 B2) (fp_mul (fp_mul (fp_mul x x) x) x)))).
  - ring.
  - rewrite CU. ring.
Qed.
Lemma q_x_rel : prel q_x x.
Proof.
  exists 0, 1, 0. cbn [q_x fst snd]. repeat split; try apply (c_of_rel m Hm). ring.
Qed.
Lemma q_pow_rel e r : q_pow e = Some r -> prel r (fp_of p (fval x ^ Zpos e)).
Proof.
  assert (X : forall k, 0 <= k -> fp_of p (fval x ^ (k + 1)) = fp_mul (fp_of p (fval x ^ k)) x).
  { intros k Hk. rewrite Z.pow_add_r, Z.pow_1_r by lia. rewrite fp_of_mul, fp_of_val. reflexivity. }
  assert (D : forall k, 0 <= k -> fp_of p (fval x ^ (k + k)) = fp_mul (fp_of p (fval x ^ k)) (fp_of p (fval x ^ k))).
  { intros k Hk. rewrite Z.pow_add_r by lia. apply fp_of_mul. }
  revert r. induction e as [e IH|e IH|]; intros r H; cbn [q_pow] in H.
  - destruct (q_pow e) as [f|]; [|discriminate].
    destruct (q_mul f f) as [g|] eqn:E; [|discriminate].
    apply (q_mul_rel _ _ _ _ _ (IH _ eq_refl) (IH _ eq_refl)) in E.
    apply (q_mul_rel _ _ _ _ _ E q_x_rel) in H.
    replace (Z.pos e~1) with (Z.pos e + Z.pos e + 1) by lia.
    rewrite X, D by lia. exact H.
  - destruct (q_pow e) as [f|]; [|discriminate].
    apply (q_mul_rel _ _ _ _ _ (IH _ eq_refl) (IH _ eq_refl)) in H.
    replace (Z.pos e~0) with (Z.pos e + Z.pos e) by lia. rewrite D by lia. exact H.
  - injection H as <-. rewrite Z.pow_1_r, fp_of_val. apply q_x_rel.
Qed.
Lemma q_check_false u0 u1 u2 : q_check p u0 u1 u2 = true -> False.
Proof.
  assert (P2 := prime_ge_2 _ Hprime).
  unfold q_check. destruct (q_pow (Z.to_pos p)) as [[[h0 h1] h2]|] eqn:EH; [|discriminate].
  apply q_pow_rel in EH. rewrite Z2Pos.id in EH by (lia).
  assert (FX : fp_of p (fval x ^ p) = x).
  { destruct (Z.eq_dec (fval x mod p) 0) as [E|E].
    - assert (E0 : fval x = 0) by (rewrite <- E; symmetry; apply Z.mod_small, fval_bound; lia).
      rewrite E0, Z.pow_0_l by (lia). apply fp_eq. rewrite E0. reflexivity.
    - assert (EP : forall b : Z, b ^ p = b ^ (p - 1) * b).
      { intros b. transitivity (b ^ (p - 1 + 1)); [f_equal; lia|]. rewrite Z.pow_add_r, Z.pow_1_r by lia. reflexivity. }
      rewrite EP.
      rewrite fp_of_mul, fp_of_val.
      replace (fp_of p (fval x ^ (p - 1))) with (fp_of p 1); [ring|].
      apply fp_of_eq. rewrite (fermat p Hprime _ E). apply Z.mod_small. lia. }
  rewrite FX in EH. destruct EH as (y0 & y1 & y2 & R0 & R1 & R2 & EX). cbn [fst snd] in *.
  destruct (sub h1 (c_of m 1)) as [h1'|] eqn:E1; [|discriminate].
  eapply (sub_z m Hm) in E1; [|eassumption|apply (c_of_rel m Hm)].
  assert (PG : prel (h0, h1', h2) (fp_of p 0)).
  { exists y0, (y1 - 1), y2. cbn [fst snd].
    split; [exact R0|]. split; [exact E1|]. split; [exact R2|].
    rewrite fp_of_sub. transitivity (fp_sub x x); [ring|]. rewrite EX at 1. ring. }
  assert (PU : exists v, prel (c_of m u0, c_of m u1, c_of m u2) v).
  { eexists. exists u0, u1, u2. cbn [fst snd].
    split; [apply (c_of_rel m Hm)|]. split; [apply (c_of_rel m Hm)|]. split; [apply (c_of_rel m Hm)|]. reflexivity. }
  destruct PU as [v PU].
  destruct (q_mul _ _) as [[[r0 r1] r2]|] eqn:EM; [|discriminate].
  apply (q_mul_rel _ _ _ _ _ PU PG) in EM. intros C. rewrite !andb_true_iff, !Z.eqb_eq in C.
  destruct C as [[C0 C1] C2]. destruct EM as (z0 & z1 & z2 & S0 & S1 & S2 & EV). cbn [fst snd] in *.
  apply c_val_rel in S0, S1, S2. rewrite C0 in S0. rewrite C1 in S1. rewrite C2 in S2.
  rewrite fval_of in S0, S1, S2. rewrite Hmp in S0, S1, S2. 
  assert (T0 : fp_of p z0 = fp_of p 1) by (apply fp_eq; rewrite !fval_of, <- S0; symmetry; apply Z.mod_small; lia).
  assert (T1 : fp_of p z1 = fp_of p 0) by (apply fp_of_0; congruence).
  assert (T2 : fp_of p z2 = fp_of p 0) by (apply fp_of_0; congruence).
  rewrite T0, T1, T2 in EV.
  assert (E10 : fp_of p 1 = fp_of p 0).
  { transitivity (fp_mul v (fp_of p 0)); [|ring]. rewrite EV. ring. }
  revert E10. apply fp_of_ne0. lia.
Qed.
End Root.

Definition root_check (m : mctx) (c : wcurve) (u0 u1 u2 : Z) : bool :=
  mctx_ok m && (mc_p m =? w_p c) && (2 * w_p c + 1 <? 3 * w_n c) &&
  q_check m (c_of m (w_a c)) (c_of m (w_b c)) (w_p c) u0 u1 u2.
Theorem root_check_ok m c u0 u1 u2 : w_valid c -> root_check m c u0 u1 u2 = true ->
  forall P, w_on c P -> w_mul c (w_n c) P = pinf c.
Proof.
  intros Hv H. unfold root_check in H. rewrite !andb_true_iff in H. destruct H as [[[H1 H2] H3] H4].
  apply Z.eqb_eq in H2. apply Z.ltb_lt in H3. apply all_order; [exact Hv|exact H3|].
  intros x Hx.
  eapply (q_check_false m (c_of m (w_a c)) (c_of m (w_b c)) c H1 H2 (wv_prime c (wv_field c Hv))); try exact H4; try exact Hx;
    apply c_of_rel; exact H1.
Qed.

(** The four curves used by the library have order n: every point is killed by n. *)
Theorem secp256k1_order P : w_on secp256k1 P -> w_mul secp256k1 (w_n secp256k1) P = pinf secp256k1.
Proof.
  apply (root_check_ok ctx_k1p secp256k1
    0
    0
    46758632835564736012269203954919337884311706168562511263687580192619680188360); [exact secp256k1_valid|].
  vm_compute. reflexivity.
Qed.
Theorem p256_order P : w_on p256 P -> w_mul p256 (w_n p256) P = pinf p256.
Proof.
  apply (root_check_ok ctx_r1p p256
    76626890310466861426869089647039036757962535851890885406097439786770458211455
    74462945259064871768191128030512052509059297803194871526163573358218695456204
    34768139465301476436978405170953382516735956999154666452188405812258086013549); [exact p256_valid|].
  vm_compute. reflexivity.
Qed.
Theorem sm2p256_order P : w_on sm2p256 P -> w_mul sm2p256 (w_n sm2p256) P = pinf sm2p256.
Proof.
  apply (root_check_ok ctx_sm2p sm2p256
    106557179798172127300574136655860231618341984660982404479791742557385015191369
    84996361976986330174717689059298811725079258493181573729141059899368768071857
    35585630630933897022180037835235642085639273520660122098341330484096648951663); [exact sm2p256_valid|].
  vm_compute. reflexivity.
Qed.
Theorem pallas_order P : w_on pallas P -> w_mul pallas (w_n pallas) P = pinf pallas.
Proof.
  apply (root_check_ok ctx_pallasp pallas
    0
    0
    12942179359813130014250373982179319328589982086324135553423985136442302641857); [exact pallas_valid|].
  vm_compute. reflexivity.
Qed.
