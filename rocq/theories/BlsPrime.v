(** The field prime p of BLS12-381 is prime: the point G of the curve y^2 = x^3 + 4
    has order r modulo every prime factor q of p, and r points need 2q + 1 >= r, so
    that no q is below the square root of p (Goldwasser-Kilian).  Mathematics only. *)
Require Import ZArith List Lia Znumtheory Uint63 Ring Field Bool.
Require Import Verif.Base Verif.Fp Verif.Mont63 Verif.Pock Verif.Weier Verif.Jac Verif.Group Verif.EC Verif.OrderCheck Verif.AllOrder Verif.BlsPrimes.
Import ListNotations.

(** The computation of OrderCheck.v modulo N, read modulo a prime factor of N *)
Section Factor.
Variable m : mctx.
Variables la lgx lgy : list int.
Local Notation mul := (c_mul m).
Local Notation sub := (c_sub m).
Local Notation o_dbl := (o_dbl m la).
Local Notation o_madd := (o_madd m lgx lgy).
Local Notation o_mul := (o_mul m la lgx lgy).
Local Open Scope Z_scope.
Variable c : wcurve.
Hypothesis Hm : mctx_ok m = true.
Hypothesis Hmp : (w_p c | mc_p m).
Hypothesis Hf : w_field_ok c.
Hypothesis Hla : mrel m la (fp_of (mc_p m) (w_a c)).
Hypothesis Hgx : mrel m lgx (fp_of (mc_p m) (w_gx c)).
Hypothesis Hgy : mrel m lgy (fp_of (mc_p m) (w_gy c)).
Hypothesis HG : w_on c (w_G c).
Definition jc (x y z : fp (w_p c)) : pt c := jac _ (fp_of _ 0) fp_mul fp_div fp_dec x y z.
Definition orel (L : list int * list int * list int) (P : pt c) : Prop :=
  exists x y z : Z,
    mrel m (fst (fst L)) (fp_of _ x) /\ mrel m (snd (fst L)) (fp_of _ y) /\
    mrel m (snd L) (fp_of _ z) /\
    (z mod w_p c <> 0 -> jc (fp_of _ x) (fp_of _ y) (fp_of _ z) = P).
Lemma mul_z a b x y r : mrel m a (fp_of _ x) -> mrel m b (fp_of _ y) -> mul a b = Some r ->
  mrel m r (fp_of _ (x * y)).
Proof. intros Ha Hb E. rewrite fp_of_mul. eapply c_mul_rel; eauto. Qed.
Lemma sub_z a b x y r : mrel m a (fp_of _ x) -> mrel m b (fp_of _ y) -> sub a b = Some r ->
  mrel m r (fp_of _ (x - y)).
Proof. intros Ha Hb E. rewrite fp_of_sub. eapply c_sub_rel; eauto. Qed.
Lemma add_z a b x y r : mrel m a (fp_of _ x) -> mrel m b (fp_of _ y) -> madd a b = Some r ->
  mrel m r (fp_of _ (x + y)).
Proof. intros Ha Hb E. rewrite fp_of_add. eapply madd_rel; eauto. Qed.
Ltac step H :=
  match type of H with
  | (match ?e with Some _ => _ | None => None end) = Some _ =>
      let E := fresh "E" in let v := fresh "v" in
      destruct e as [v|] eqn:E; [|discriminate H];
      first [ eapply mul_z in E; [|eassumption|eassumption]
            | eapply sub_z in E; [|eassumption|eassumption]
            | eapply add_z in E; [|eassumption|eassumption] ]
  end.

Lemma Kf : field_theory (fp_of (w_p c) 0) (fp_of (w_p c) 1) fp_add fp_mul fp_sub fp_opp fp_div fp_inv eq.
Proof. exact (fp_field _ (wv_prime c Hf)). Qed.
Add Field KFO2 : Kf.

Lemma o_dbl_rel L P R : orel L P -> o_dbl L = Some R -> orel R (w_add c P P).
Proof.
  destruct L as [[X Y] Z]. intros (x & y & z & Hx & Hy & Hz & HJ) H. cbn [fst snd] in *.
  unfold OrderCheck.o_dbl in H. repeat step H. injection H as <-.
  eexists _, _, _. cbn [fst snd]. split; [eassumption|]. split; [eassumption|]. split; [eassumption|].
  intros Hz3.
  assert (Hz0 : z mod w_p c <> 0).
  { intros Q0. apply Hz3. apply fp_of_0 in Q0. apply fp_of_0.
    rewrite fp_of_add, fp_of_mul, Q0. ring. }
  rewrite <- (HJ Hz0). symmetry.
  unfold jc, w_add.
  pose proof (jac_dbl_gen _ _ _ _ _ _ _ _ _ Kf fp_dec (fp_of _ (w_a c)) (w_char2 c Hf)
    (fp_of _ x) (fp_of _ y) (fp_of _ z)) as HD. cbv zeta in HD.
  specialize (HD _ eq_refl). rewrite HD. clear -Hf.
  autorewrite with fpz.
  set (fx := fp_of (w_p c) x). set (fy := fp_of (w_p c) y). set (fz := fp_of (w_p c) z).
  set (fa := fp_of (w_p c) (w_a c)). clearbody fx fy fz fa.
  apply f_equal3; ring.
Qed.

Lemma o_madd_rel L P R : orel L P -> o_madd L = Some R -> orel R (w_add c P (w_G c)).
Proof.
  destruct L as [[X Y] Z]. intros (x & y & z & Hx & Hy & Hz & HJ) H. cbn [fst snd] in *.
  unfold OrderCheck.o_madd in H. repeat step H. injection H as <-.
  eexists _, _, _. cbn [fst snd]. split; [eassumption|]. split; [eassumption|]. split; [eassumption|].
  intros Hz3.
  assert (Hp : w_p c <> 0) by (pose proof (wv_odd c Hf); lia).
  assert (Hz0 : z mod w_p c <> 0).
  { intros Q0. apply Hz3. apply fp_of_0 in Q0. apply fp_of_0. rewrite fp_of_mul, Q0. ring. }
  assert (Hh0 : (w_gx c * (z * z) - x) mod w_p c <> 0).
  { intros Q0. apply Hz3. apply fp_of_0 in Q0. apply fp_of_0. rewrite fp_of_mul, Q0. ring. }
  rewrite <- (HJ Hz0). symmetry.
  unfold jc, w_add, w_G, paff.
  pose proof (jac_madd _ _ _ _ _ _ _ _ _ Kf fp_dec (fp_of _ (w_a c))
    (fp_of _ x) (fp_of _ y) (fp_of _ z) (fp_of _ (w_gx c)) (fp_of _ (w_gy c))) as HD. cbv zeta in HD.
  assert (A1 : fp_of (w_p c) z <> fp_of (w_p c) 0) by (rewrite fp_of_0; exact Hz0).
  assert (A2 : fp_of (w_p c) (w_gx c * (z * z) - x) <> fp_of (w_p c) 0) by (rewrite fp_of_0; exact Hh0).
  rewrite fp_of_sub, !fp_of_mul in A2.
  specialize (HD A1 A2 _ eq_refl). rewrite HD. clear -Hf.
  autorewrite with fpz. reflexivity.
Qed.

Lemma o_mul_rel e R : o_mul e = Some R -> orel R (w_mul c (Zpos e) (w_G c)).
Proof.
  pose proof (w_group c Hf) as HW.
  revert R. induction e as [e IH|e IH|]; intros R H; cbn [OrderCheck.o_mul] in H.
  - destruct (o_mul e) as [L|]; [|discriminate].
    destruct (o_dbl L) as [Q|] eqn:E; [|discriminate].
    apply (o_dbl_rel _ _ _ (IH _ eq_refl)) in E.
    apply (o_madd_rel _ _ _ E) in H.
    replace (Z.pos e~1) with (Z.pos e + Z.pos e + 1) by lia.
    unfold w_mul in *. rewrite !(zmul_add _ _ _ _ _ HW), (zmul_1 _ _ _ _ _ HW) by exact HG.
    exact H.
  - destruct (o_mul e) as [L|]; [|discriminate].
    apply (o_dbl_rel _ _ _ (IH _ eq_refl)) in H.
    replace (Z.pos e~0) with (Z.pos e + Z.pos e) by lia.
    unfold w_mul in *. rewrite !(zmul_add _ _ _ _ _ HW) by exact HG. exact H.
  - injection H as <-. exists (w_gx c), (w_gy c), 1. cbn [fst snd].
    split; [exact Hgx|]. split; [exact Hgy|]. split; [apply c_of_rel, Hm|].
    intros _. unfold w_mul. rewrite (zmul_1 _ _ _ _ _ HW) by exact HG.
    unfold jc. apply (jac_1 _ _ _ _ _ _ _ _ _ Kf).
Qed.


(** [n-1]G = -G with the Z coordinate invertible (inverse [w]) *)
Definition f_check (n w : Z) : bool :=
  match (do P <- o_mul (Z.to_pos (n - 1));
         let '(X, Y, Z) := P in
         do zz <- mul Z Z; do zzz <- mul Z zz;
         do u <- mul lgx zz; do s <- mul lgy zzz; do s' <- madd s Y;
         do o <- mul Z (c_of m w);
         Some ((c_val m o =? 1)%Z && (c_val m X =? c_val m u)%Z && (c_val m s' =? 0)%Z))
  with Some b => b | None => false end.
Lemma mod_q x y : x mod mc_p m = y mod mc_p m -> fp_of (w_p c) x = fp_of (w_p c) y.
Proof.
  intros E. apply fp_of_eq. pose proof (wv_odd c Hf) as H2. pose proof (ctx_facts m Hm) as HP. destruct HP as (HP & _).
  rewrite (Zmod_div_mod (w_p c) (mc_p m) x), (Zmod_div_mod (w_p c) (mc_p m) y) by (assumption || lia). now rewrite E.
Qed.
Theorem f_check_ok n w : 2 < n -> f_check n w = true -> w_mul c n (w_G c) = pinf c.
Proof.
  intros Hn H. pose proof (w_group c Hf) as HW. unfold f_check in H.
  destruct (o_mul (Z.to_pos (n - 1))) as [[[X Y] Z]|] eqn:EP; [|discriminate].
  apply o_mul_rel in EP. destruct EP as (x & y & z & Hx & Hy & Hz & HJ). cbn [fst snd] in *.
  destruct (c_mul m Z Z) as [zz|] eqn:E1; [|discriminate].
  eapply mul_z in E1; [|eassumption|eassumption].
  destruct (c_mul m Z zz) as [zzz|] eqn:E2; [|discriminate].
  eapply mul_z in E2; [|eassumption|eassumption].
  destruct (c_mul m lgx zz) as [u|] eqn:E3; [|discriminate].
  eapply mul_z in E3; [|eassumption|eassumption].
  destruct (c_mul m lgy zzz) as [s|] eqn:E4; [|discriminate].
  eapply mul_z in E4; [|eassumption|eassumption].
  destruct (madd s Y) as [s'|] eqn:E5; [|discriminate].
  eapply add_z in E5; [|eassumption|eassumption].
  destruct (c_mul m Z (c_of m w)) as [o|] eqn:E6; [|discriminate].
  eapply mul_z in E6; [|eassumption|apply c_of_rel, Hm].
  rewrite !andb_true_iff in H. destruct H as ((H1 & H2) & H3).
  rewrite (c_val_rel m _ _ E6) in H1. rewrite (c_val_rel m _ _ Hx), (c_val_rel m _ _ E3) in H2.
  rewrite (c_val_rel m _ _ E5) in H3. rewrite !fval_of in *. apply Z.eqb_eq in H1, H2, H3.
  pose proof (ctx_facts m Hm) as HP. destruct HP as (HP & _).
  assert (Ez : fp_mul (fp_of (w_p c) z) (fp_of _ w) = fp_of _ 1).
  { rewrite <- fp_of_mul. apply mod_q. rewrite H1. symmetry. apply Z.mod_small. lia. }
  assert (Hzf : fp_of (w_p c) z <> fp_of (w_p c) 0).
  { intros Q0. rewrite Q0 in Ez. apply (F_1_neq_0 Kf). rewrite <- Ez. ring. }
  assert (Hz0 : z mod w_p c <> 0) by (rewrite <- fp_of_0; exact Hzf).
  specialize (HJ Hz0).
  rewrite Z2Pos.id in HJ by lia.
  assert (EN : w_mul c (n - 1) (w_G c) = w_neg c (w_G c)).
  { rewrite <- HJ. unfold jc. rewrite jac_ne by exact Hzf.
    unfold w_G, w_neg, paff. cbn [pneg]. f_equal.
    - apply mod_q in H2. rewrite H2, !fp_of_mul. field. auto.
    - assert (H3' : fp_of (w_p c) (w_gy c * (z * (z * z)) + y) = fp_of (w_p c) 0) by (apply mod_q; rewrite H3; reflexivity).
      rewrite fp_of_add, !fp_of_mul in H3'.
      assert (Ey : fp_of (w_p c) y = fp_opp (fp_mul (fp_of _ (w_gy c))
                 (fp_mul (fp_of _ z) (fp_mul (fp_of _ z) (fp_of _ z))))).
      { match type of H3' with fp_add ?t ?v = _ =>
          transitivity (fp_sub (fp_add t v) t); [ring|]; rewrite H3'; ring end. }
      rewrite Ey. field. auto. }
  replace n with (n - 1 + 1) by lia.
  unfold w_mul in *. rewrite (zmul_add _ _ _ _ _ HW), (zmul_1 _ _ _ _ _ HW), EN by exact HG.
  apply (gneg_l _ _ _ _ _ HW). exact HG.
Qed.

(** At most 2q + 1 points *)
Theorem order_bound n : prime n -> 2 < n -> w_mul c n (w_G c) = pinf c -> n <= 2 * w_p c + 2.
Proof using m c Hf HG.
  intros Pn Hn2 Hn. pose proof (w_group c Hf) as HW. pose proof (wv_odd c Hf) as H2.
  assert (HGi : w_G c <> pinf c) by discriminate.
  assert (A : (n - 1) / 2 <= w_p c).
  { pose proof (Z.div_mod (n - 1) 2 ltac:(lia)) as D. pose proof (Z.mod_pos_bound (n - 1) 2 ltac:(lia)) as M.
    apply (pigeon (fun i => px c (w_mul c (i + 1) (w_G c)))); [lia|lia| |].
    - intros i Hi. unfold px. destruct (w_mul c (i + 1) (w_G c)); [lia|]. apply fval_bound. lia.
    - intros i j Hi Hj E.
      assert (On : forall k, w_on c (w_mul c k (w_G c))) by (intros k; apply (zmul_ok _ _ _ _ _ HW); exact HG).
      assert (Fin : forall k, 0 < k < n -> w_mul c k (w_G c) <> pinf c).
      { intros k Hk E0. unfold w_mul in *.
        pose proof (zmul_inj _ _ _ _ _ HW n k 0 (w_G c) HG Pn Hn HGi) as I. rewrite (zmul_0 _ _ _ _) in I. specialize (I E0).
        rewrite !Z.mod_small in I by lia. lia. }
      pose proof (Fin (i + 1) ltac:(lia)) as Fi. pose proof (Fin (j + 1) ltac:(lia)) as Fj.
      pose proof (On (i + 1)) as Oi. pose proof (On (j + 1)) as Oj.
      assert (S : w_mul c (i + 1) (w_G c) = w_mul c (j + 1) (w_G c) \/ w_mul c (i + 1) (w_G c) = w_neg c (w_mul c (j + 1) (w_G c))).
      { destruct (w_mul c (i + 1) (w_G c)) as [|x y]; [now elim Fi|]. destruct (w_mul c (j + 1) (w_G c)) as [|x' y']; [now elim Fj|].
        cbn [px] in E. apply fp_eq in E. subst x'. cbn [w_on on_curve] in Oi, Oj. unfold w_on, on_curve in Oi, Oj.
        destruct (k_integral _ _ _ _ _ _ _ _ _ Kf fp_dec (fp_sub y y') (fp_add y y')) as [Q|Q].
        - transitivity (fp_sub (fp_mul y y) (fp_mul y' y')); [ring|]. rewrite Oi, Oj. ring.
        - left. f_equal. apply (k_sub0 _ _ _ _ _ _ _ _ _ Kf). exact Q.
        - right. unfold w_neg, pneg. f_equal. transitivity (fp_sub (fp_add y y') y'); [ring|]. rewrite Q. ring. }
      assert (I : forall a b, w_mul c a (w_G c) = w_mul c b (w_G c) -> a mod n = b mod n).
      { intros a b. exact (zmul_inj _ _ _ _ _ HW n a b (w_G c) HG Pn Hn HGi). }
      destruct S as [S|S].
      + apply I in S. rewrite !Z.mod_small in S by lia. lia.
      + unfold w_mul in S. rewrite <- (zmul_neg _ _ _ _ _ HW) in S by exact HG. apply I in S.
        rewrite Z.mod_small in S by lia. replace (- (j + 1)) with (n - (j + 1) + (-1) * n) in S by lia.
        rewrite Z.mod_add, Z.mod_small in S by lia. lia. }
  pose proof (Z.div_mod (n - 1) 2 ltac:(lia)) as D. pose proof (Z.mod_pos_bound (n - 1) 2 ltac:(lia)) as M. lia.
Qed.
End Factor.
(** ** The prime *)
Local Open Scope Z_scope.
Definition blsp : Z := 0x1a0111ea397fe69a4b1ba7b6434bacd764774b84f38512bf6730d2a0f6b0f6241eabfffeb153ffffb9feffffffffaaab.
Definition blsr : Z := 0x73eda753299d7d483339d80809a1d80553bda402fffe5bfeffffffff00000001.
Definition blsgx : Z := 0x17f1d3a73197d7942695638c4fa9ac0fc3688c4f9774b905a14e3a3f171bac586c55e83ff97a1aeffb3af00adb22c6bb.
Definition blsgy : Z := 0x8b3f481e3aaa0f1a09e30ed741d8ae4fcf5e095d5d00af600db18cb2c04b3edd03cc744a2888ae40caa232946c5e7e1.
Definition E1 (q : Z) : wcurve := {| w_p := q; w_a := 0; w_b := 4; w_gx := blsgx; w_gy := blsgy; w_n := blsr |}.
Lemma blsr_prime : prime blsr. Proof. exact prime_blsr. Qed.
Lemma bls_chain : f_check ctx_blsp (c_of ctx_blsp 0) (c_of ctx_blsp blsgx) (c_of ctx_blsp blsgy) blsr 0xc9d509791b4620031d4365e9308154a47a318346737dbf81a118f5cfe6db2e8938ffb3d9463604531e4a3e48ee9e429 = true.
Proof. vm_cast_no_check (@eq_refl bool true). Qed.
Lemma bls_on : (blsgy * blsgy) mod blsp = (blsgx * blsgx * blsgx + 0 * blsgx + 4) mod blsp.
Proof. vm_cast_no_check (@eq_refl Z ((blsgy * blsgy) mod blsp)). Qed.
Lemma bls_gcd6 : Z.gcd 6 blsp = 1. Proof. vm_cast_no_check (@eq_refl Z 1). Qed.
Lemma bls_size : 2 < blsr /\ 1 < blsp /\ blsp < ((blsr - 2) / 2) * ((blsr - 2) / 2).
Proof. refine (conj _ (conj _ _)); vm_cast_no_check (@eq_refl comparison Lt). Qed.
Opaque blsp blsr blsgx blsgy.
Lemma mod_dvd q N x y : 1 < q -> 1 < N -> (q | N) -> x mod N = y mod N -> x mod q = y mod q.
Proof. intros Q L D E. rewrite (Zmod_div_mod q N x), (Zmod_div_mod q N y) by (assumption || lia). now rewrite E. Qed.
Lemma big_factor q : prime q -> (q | blsp) -> blsr <= 2 * q + 2.
Proof.
  intros Pq D. pose proof bls_size as (S1 & S2 & _).
  assert (N6 : forall k, (k | 6) -> q <> k \/ k = 1).
  { intros k Hk. destruct (Z.eq_dec q k) as [E|E]; [|now left]. subst k. right.
    assert (G : (q | 1)) by (rewrite <- bls_gcd6; now apply Z.gcd_greatest).
    destruct Pq as [H1 _]. apply Z.divide_pos_le in G; lia. }
  assert (Q1 : 1 < q) by (destruct Pq; assumption).
  assert (Q2 : q <> 2) by (destruct (N6 2 ltac:(exists 3; reflexivity)) as [|]; [assumption|discriminate]).
  assert (Q3 : q <> 3) by (destruct (N6 3 ltac:(exists 2; reflexivity)) as [|]; [assumption|discriminate]).
  assert (Hf : w_field_ok (E1 q)).
  { constructor; cbn [w_p w_a w_b E1]; [exact Pq|lia|]. intros M0.
    assert (D4 : (q | 2 ^ 4 * 3 ^ 3)) by (apply Z.mod_divide; [lia|]; exact M0).
    assert (PD : forall a n, (q | a ^ Z.of_nat n) -> (q | a)).
    { intros a n. induction n as [|n IH]; intros H.
      - apply Z.divide_pos_le in H; cbn in H; lia.
      - rewrite Nat2Z.inj_succ, Z.pow_succ_r in H by lia. apply prime_mult in H; [|exact Pq]. destruct H; auto. }
    apply prime_mult in D4; [|exact Pq]. destruct D4 as [D4|D4].
    - apply (PD 2 4%nat) in D4. apply Z.divide_pos_le in D4; lia.
    - apply (PD 3 3%nat) in D4. assert (q <= 3) by (apply Z.divide_pos_le in D4; lia). lia. }
  assert (HG : w_on (E1 q) (w_G (E1 q))).
  { apply paff_on_iff. cbn [w_p w_a w_b w_gx w_gy E1]. exact (mod_dvd q blsp _ _ Q1 S2 D bls_on). }
  apply (order_bound ctx_blsp (E1 q) Hf HG); [exact blsr_prime|exact S1|].
  refine (f_check_ok ctx_blsp _ _ _ (E1 q) ctx_blsp_ok D Hf _ _ _ HG blsr _ S1 bls_chain); apply c_of_rel, ctx_blsp_ok.
Qed.
Theorem blsp_prime : prime blsp.
Proof.
  pose proof bls_size as (S1 & S2 & S3). apply prime_by_divisors; [exact S2|].
  intros q Pq D. pose proof (big_factor q Pq D) as B.
  assert (L : (blsr - 2) / 2 <= q) by (apply Z.div_le_upper_bound; lia).
  assert (L0 : 0 <= (blsr - 2) / 2) by (apply Z.div_pos; lia).
  clear - S3 L L0. set (h := (blsr - 2) / 2) in *. clearbody h. nia.
Qed.
