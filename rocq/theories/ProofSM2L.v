(** The SM2 scalar multiplications of ModelSM2P.v compute the multiples of a
    point whenever no multiplication they perform underflows. *)
From Coq Require Import ZArith List Lia Znumtheory Ring Field Bool.
From Verif Require Import Base Fp Weier Jac Group EC Mont63 Primes Curves AllOrder ModelECDSA ModelK1
  SpecECDSA ProofECDSA ModelSM2F ProofSM2R ProofSM2M ModelSM2P ProofSM2P ProofSM2T.
Import ListNotations.
Open Scope Z_scope.

(** ** Table lookup *)
Lemma select_mask_spec i j : 0 <= i < 16 -> 0 <= j < 16 ->
  select_mask i j = if i =? j then 2 ^ 32 - 1 else 0.
Proof.
  intros Hi Hj.
  assert (H : forallb (fun i => forallb (fun j => select_mask (Z.of_nat i) (Z.of_nat j) =?
     (if Z.of_nat i =? Z.of_nat j then 2 ^ 32 - 1 else 0)) (seq 0 16)) (seq 0 16) = true)
    by (vm_compute; reflexivity).
  rewrite forallb_forall in H. specialize (H (Z.to_nat i) ltac:(apply in_seq; lia)).
  rewrite forallb_forall in H. specialize (H (Z.to_nat j) ltac:(apply in_seq; lia)).
  rewrite !Z2Nat.id in H by lia. apply Z.eqb_eq. exact H.
Qed.

Definition limbs32 (row : fe) : Prop := Forall (fun x => 0 <= x < 2 ^ 32) row.
Lemma or_row_0 out row : length out = length row -> or_row 0 out row = out.
Proof.
  unfold or_row. revert row. induction out as [|o out IH]; intros [|t row] L; try discriminate; [reflexivity|].
  cbn [combine map]. rewrite Z.land_0_r, Z.lor_0_r, IH by (cbn in L; lia). reflexivity.
Qed.
Lemma or_row_1 row : limbs32 row ->
  or_row (2 ^ 32 - 1) (repeat 0 (length row)) row = row.
Proof.
  unfold or_row. induction 1 as [|t row Ht Hr IH]; [reflexivity|].
  cbn [length repeat combine map]. rewrite Z.lor_0_l, IH.
  change (2 ^ 32 - 1) with (Z.ones 32). rewrite Z.land_ones, Z.mod_small by lia. reflexivity.
Qed.
Definition row9 (row : fe) : Prop := length row = 9%nat /\ limbs32 row.
Lemma select_from_other rows : forall i j out, 0 <= i -> i + Z.of_nat (length rows) <= 16 -> 0 <= j < 16 ->
  j < i \/ i + Z.of_nat (length rows) <= j -> length out = 9%nat -> Forall row9 rows ->
  select_from i j rows out = out.
Proof.
  induction rows as [|row rows IH]; intros i j out Hi Hl Hj Ho L HR; [reflexivity|].
  inversion HR as [|? ? [L9 _] HR']; subst. cbn [select_from length] in *.
  rewrite select_mask_spec by lia. replace (i =? j) with false by lia.
  rewrite or_row_0 by congruence. apply IH; auto; lia.
Qed.
Lemma select_from_spec rows : forall i j, 0 <= i -> i + Z.of_nat (length rows) <= 16 ->
  i <= j < i + Z.of_nat (length rows) -> Forall row9 rows ->
  select_from i j rows fe_zero = nth (Z.to_nat (j - i)) rows fe_zero.
Proof.
  induction rows as [|row rows IH]; intros i j Hi Hl Hj HR; [cbn in Hj; lia|].
  inversion HR as [|? ? [L9 L32] HR']; subst. cbn [select_from length] in *.
  rewrite select_mask_spec by lia. destruct (Z.eqb_spec i j) as [E|E].
  - subst j. rewrite Z.sub_diag. cbn [Z.to_nat nth].
    change fe_zero with (repeat 0 9). rewrite <- L9, or_row_1 by exact L32.
    apply select_from_other; auto; lia.
  - rewrite or_row_0 by (rewrite L9; reflexivity).
    rewrite IH by (auto; lia). replace (Z.to_nat (j - i)) with (S (Z.to_nat (j - (i + 1)))) by lia.
    reflexivity.
Qed.
Lemma select_0 rows : Z.of_nat (length rows) <= 15 -> Forall row9 rows ->
  select_from 1 0 rows fe_zero = fe_zero.
Proof. intros H HR. apply select_from_other; auto; lia. Qed.

Lemma fe_ok_row9 a : fe_ok a -> row9 a.
Proof.
  intros H. split; [apply fe_len; exact H|]. unfold fe_ok in H. unfold limbs32.
  do 9 (let x := fresh in destruct a as [|x a]; [inversion H|]; inversion H; subst; clear H;
    match goal with K : Forall2 _ _ _ |- _ => rename K into H end).
  inversion H; subst. repeat constructor; lia.
Qed.

(** ** Scalars *)
Lemma firstn_le n : forall b, bytes_ok b -> firstn n (b ++ repeat 0 n) = z2le n (le2z b).
Proof.
  induction n as [|n IH]; intros b Hb; [reflexivity|].
  destruct b as [|x b].
  - cbn [app repeat firstn z2le le2z]. rewrite Zmod_0_l. f_equal.
    change (0 / 256) with 0. rewrite z2le_0. rewrite <- (app_nil_r (repeat 0 n)) at 1.
    rewrite firstn_app, repeat_length, Nat.sub_diag. cbn [firstn]. rewrite app_nil_r.
    rewrite firstn_all2 by (rewrite repeat_length; lia). reflexivity.
  - inversion Hb as [|? ? Hx Hb']; subst. unfold byte_ok in Hx.
    cbn [app firstn z2le le2z]. f_equal; [lia|].
    replace ((x + 256 * le2z b) / 256) with (le2z b) by lia.
    rewrite <- IH by exact Hb'. cbn [repeat].
    replace (0 :: repeat 0 n) with (repeat 0 n ++ [0]).
    + rewrite app_assoc, firstn_app, app_length, repeat_length.
      replace (n - (length b + n))%nat with O by lia. cbn [firstn]. apply app_nil_r.
    + rewrite repeat_snoc. reflexivity.
Qed.

Definition scalar_of (a : bytes) : Z := be2z a mod sm2_N.
Lemma get_scalar_spec a : bytes_ok a -> sm2_get_scalar a = z2le 32 (scalar_of a).
Proof.
  intros Ha. unfold sm2_get_scalar, scalar_of. pose proof (be2z_bound a Ha) as Hb.
  rewrite firstn_le.
  - f_equal. destruct (Z.leb_spec sm2_N (be2z a)).
    + change (le2z (rev (big_bytes (be2z a mod sm2_N)))) with (be2z (big_bytes (be2z a mod sm2_N))).
      apply be2z_big_bytes. apply Z.mod_pos_bound. reflexivity.
    + rewrite Z.mod_small by lia. reflexivity.
  - apply bytes_ok_rev. destruct (_ <=? _); [apply big_bytes_ok|exact Ha].
Qed.
Lemma scalar_of_range a : 0 <= scalar_of a < sm2_N.
Proof. apply Z.mod_pos_bound. reflexivity. Qed.

Lemma get_bit_spec K b : 0 <= K -> 0 <= b < 256 -> sm2_get_bit (z2le 32 K) b = (K / 2 ^ b) mod 2.
Proof.
  intros HK Hb. unfold sm2_get_bit. rewrite nth_z2le by lia. rewrite Z2Nat.id by lia.
  unfold shr. rewrite Z.shiftr_div_pow2 by lia.
  change 1 with (Z.ones 1) at 1. rewrite Z.land_ones by lia. change (2 ^ 1) with 2.
  replace (256 ^ (b / 8)) with (2 ^ (8 * (b / 8))) by (rewrite Z.pow_mul_r by lia; reflexivity).
  set (q := b / 8). set (r := b mod 8).
  assert (Hbq : b = 8 * q + r) by (unfold q, r; lia). assert (0 <= r < 8) by (unfold r; lia).
  assert (0 <= q) by (unfold q; lia).
  rewrite Hbq at 1. clearbody q r. rewrite Z.pow_add_r by lia. rewrite <- Z.div_div by (apply Z.pow_pos_nonneg || apply Z.pow_nonzero; lia).
  set (M := K / 2 ^ (8 * q)). clearbody M.
  rewrite <- !Z.testbit_spec' by lia. f_equal. change 256 with (2 ^ 8).
  apply Z.mod_pow2_bits_low. lia.
Qed.

Lemma mult_index_spec K i : 0 <= K -> 0 <= i < 64 ->
  let j := mult_index (z2le 32 K) i in
  0 <= j < 16 /\ K / 16 ^ (63 - i) = 16 * (K / 16 ^ (64 - i)) + j.
Proof.
  intros HK Hi. cbv zeta. unfold mult_index. rewrite nth_z2le by lia. rewrite Z2Nat.id by lia.
  change (Z.land i 1) with (Z.land i (Z.ones 1)). rewrite Z.land_ones by lia. change (2 ^ 1) with 2.
  change 15 with (Z.ones 4). rewrite Z.land_ones by lia. unfold shr. rewrite Z.shiftr_div_pow2 by lia.
  change (2 ^ 4) with 16.
  replace (16 ^ (64 - i)) with (16 ^ (63 - i) * 16) by (rewrite Z.mul_comm, <- Z.pow_succ_r by lia; f_equal; lia).
  rewrite <- Z.div_div by (try lia; apply Z.pow_nonzero; lia).
  destruct (Z.eqb_spec (i mod 2) 1) as [E|E].
  - replace (256 ^ (31 - i / 2)) with (16 ^ (63 - i)).
    2:{ change 256 with (16 ^ 2). rewrite <- Z.pow_mul_r by lia. f_equal. lia. }
    generalize (K / 16 ^ (63 - i)). intros M. lia.
  - replace (16 ^ (63 - i)) with (256 ^ (31 - i / 2) * 16).
    2:{ change 256 with (16 ^ 2). rewrite <- Z.pow_mul_r, Z.mul_comm, <- Z.pow_succ_r by lia. f_equal. lia. }
    rewrite <- Z.div_div by (try lia; apply Z.pow_nonzero; lia).
    generalize (K / 256 ^ (31 - i / 2)). intros M. lia.
Qed.

Lemma div_pow_le b K e : 0 < b -> 0 <= K -> 0 <= e -> 0 <= K / b ^ e <= K.
Proof.
  intros Hb0 HK He. pose proof (Z.pow_pos_nonneg b e Hb0 He).
  split; [apply Z.div_pos; assumption|]. apply Z.div_le_upper_bound; [assumption|]. nia.
Qed.

Section WithCurve.
Variable c : wcurve.
Hypothesis Hcp : w_p c = sm2_P.
Hypothesis Hca : fp_of (w_p c) (w_a c) = fp_of (w_p c) sm2_a.
Hypothesis Hcb : w_b c = sm2_b.
Hypothesis Hcn : w_n c = sm2_N.
Hypothesis Hv : w_valid c.
Hypothesis Hb : w_b c mod w_p c <> 0.
Hypothesis Hord : forall P, w_on c P -> w_mul c (w_n c) P = pinf c.
Let Hf := wv_field c Hv.
Let HW := w_group c Hf.
Local Notation F := (fp_of (w_p c)).
Local Notation "k ** P" := (w_mul c k P) (at level 40).
Lemma Kf6 : field_theory (F 0) (F 1) fp_add fp_mul fp_sub fp_opp fp_div fp_inv eq.
Proof. exact (fp_field _ (wv_prime c Hf)). Qed.
Add Field KFL : Kf6.
Local Notation fv := (fv c).
Local Notation jrel := (jrel c).

(** ** Multiples of a point of order n *)
Section Point.
Variable P : pt c.
Hypothesis HP : w_on c P.
Hypothesis NP : P <> pinf c.

Lemma mP_ne k : 0 < k < sm2_N -> k ** P <> pinf c.
Proof.
  intros Hk E. apply (zmul_order _ _ _ _ _ HW (w_n c) k P HP (wv_nprime c Hv) (Hord P HP) NP) in E.
  rewrite Hcn, Z.mod_small in E; lia.
Qed.
Lemma mP_inj a b : 0 <= a < sm2_N -> 0 <= b < sm2_N -> a ** P = b ** P -> a = b.
Proof.
  intros Ha Hb' E. apply (zmul_inj _ _ _ _ _ HW (w_n c) a b P HP (wv_nprime c Hv) (Hord P HP) NP) in E.
  rewrite Hcn, !Z.mod_small in E; lia.
Qed.
Lemma mP_on k : w_on c (k ** P).
Proof. apply (zmul_ok _ _ _ _ _ HW). exact HP. Qed.
Lemma mP_add a b : w_add c (a ** P) (b ** P) = (a + b) ** P.
Proof. symmetry. apply (zmul_add _ _ _ _ _ HW). exact HP. Qed.
Lemma mP_1 : 1 ** P = P.
Proof. apply (zmul_1 _ _ _ _ _ HW). exact HP. Qed.
Lemma mP_px a b : 0 < a -> 0 < b -> a <> b -> a + b < sm2_N -> px c (a ** P) <> px c (b ** P).
Proof.
  intros Ha Hb' N S E.
  destruct (same_x c Hv (a ** P) (b ** P) (mP_on a) (mP_on b)) as [Q|Q].
  - apply mP_ne. lia.
  - apply mP_ne. lia.
  - exact E.
  - apply mP_inj in Q; lia.
  - apply (mP_ne (a + b)); [lia|]. rewrite <- mP_add, Q.
    rewrite (g_comm _ _ _ _ _ HW); [|apply (g_neg _ _ _ _ _ HW)|]; try apply mP_on.
    apply (g_inv _ _ _ _ _ HW). apply mP_on.
Qed.

(** The accumulator holds the multiple [a]; the flag says that a = 0. *)
Definition acc_is (a : Z) (st : jpoint * bool) : Prop :=
  snd st = (a =? 0) /\ (a <> 0 -> jrel (fst st) (a ** P)).
Definition acc_zero (a : Z) (st : jpoint * bool) : Prop :=
  a = 0 -> exists d z, fst st = (fe_zero, fe_zero, d) /\ fv d z.

Definition entry (t : fe * fe) (e : Z) : Prop :=
  exists x y, fv (fst t) x /\ fv (snd t) y /\ Aff _ x y = e ** P.

Lemma jrel_aff a b x y : fv a x -> fv b y -> jrel (a, b, sm2_one) (Aff _ x y).
Proof.
  intros Hx Hy. exists x, y, (F 1). split; [exact Hx|]. split; [exact Hy|]. split; [apply fv_one; exact Hcp|].
  apply (jac_1 _ _ _ _ _ _ _ _ _ (fp_field _ (wv_prime c Hf))).
Qed.

Lemma base_step_good table index a e st :
  0 <= index < 16 -> length table = 15%nat ->
  Forall row9 (map fst table) -> Forall row9 (map snd table) ->
  (index = 0 -> e = 0) ->
  (index <> 0 -> 0 < e /\ entry (nth (Z.to_nat index - 1) table (fe_zero, fe_zero)) e) ->
  0 <= a -> a + e < sm2_N -> (0 < a -> a <> e) ->
  acc_is a st ->
  good (base_step table index st) (fun st' => acc_is (a + e) st' /\ acc_zero (a + e) st').
Proof.
  intros Hi L R1 R2 E0 E1 Ha Hae Hne [Hinf Hacc]. destruct st as [acc inf]. cbn [fst snd] in *. subst inf.
  unfold base_step, select_affine.
  destruct (Z.eqb_spec index 0) as [Ei|Ei].
  - rewrite Ei, E0, Z.add_0_r by exact Ei. cbn [negb andb].
    rewrite !select_0 by (rewrite ?map_length, ?L; auto; lia).
    eapply good_bind; [apply (good_kept _ _ (fun _ => True)); discriminate|].
    intros t _. cbv zeta. apply good_ret. unfold copy_if, acc_is, acc_zero. cbn [fst snd negb].
    rewrite andb_true_r.
    split; [split; [reflexivity|]|].
    + intros N. destruct (Z.eqb_spec a 0); [contradiction|]. apply Hacc. exact N.
    + intros ->. cbn [Z.eqb]. exists sm2_one, (F 1). split; [reflexivity|apply fv_one; exact Hcp].
  - destruct (E1 Ei) as (He & x & y & Hx & Hy & Hxy). cbn [negb andb].
    set (row := nth (Z.to_nat index - 1) table (fe_zero, fe_zero)) in *.
    assert (S1 : select_from 1 index (map fst table) fe_zero = fst row).
    { rewrite select_from_spec by (rewrite ?map_length, ?L; auto; lia).
      change fe_zero with (fst (fe_zero, fe_zero)). rewrite map_nth. unfold row. do 2 f_equal. lia. }
    assert (S2 : select_from 1 index (map snd table) fe_zero = snd row).
    { rewrite select_from_spec by (rewrite ?map_length, ?L; auto; lia).
      change fe_zero with (snd (fe_zero, fe_zero)). rewrite map_nth. unfold row. do 2 f_equal. lia. }
    rewrite S1, S2. clearbody row. clear S1 S2.
    eapply good_bind.
    { apply (good_kept _ _ (fun t => jrel t ((a + e) ** P))). intros M.
      destruct (Z.eqb_spec a 0) as [Za|Za]; [discriminate|].
      assert (Hpa : 0 < a) by lia.
      rewrite <- mP_add, <- Hxy.
      apply good_mixed; auto.
      - apply mP_ne. lia.
      - change (fval x) with (px c (Aff _ x y)). rewrite Hxy. apply mP_px; auto. }
    intros t Ht. cbv zeta. apply good_ret. unfold copy_if, acc_is, acc_zero. cbn [fst snd negb].
    rewrite andb_false_r. replace (a + e =? 0) with false by lia.
    split; [split; [reflexivity|]|intros; lia]. intros _.
    destruct (Z.eqb_spec a 0) as [Za|Za]; cbn [negb] in *.
    + subst a. rewrite Z.add_0_l, <- Hxy. apply jrel_aff; assumption.
    + apply Ht. reflexivity.
Qed.

Lemma mP_double t a : jrel t (a ** P) -> good (sm2_point_double t) (fun r => jrel r ((2 * a) ** P)).
Proof.
  intros H. replace (2 * a) with (a + a) by lia. rewrite <- mP_add. apply good_double; auto.
Qed.

(** ** ScalarMult *)
Definition jentry (t : jpoint) (e : Z) : Prop := jrel t (e ** P).
Definition table_ok (table : list jpoint) : Prop :=
  forall j, (j < length table)%nat -> jentry (nth j table (fe_zero, fe_zero, fe_zero)) (Z.of_nat j + 1).

Lemma mult_table_good x y X Y : fv x X -> fv y Y -> Aff _ X Y = P -> forall n i table,
  (2 <= i)%nat -> length table = (i - 1)%nat -> (i + 2 * n <= 16)%nat -> Nat.even i = true -> table_ok table ->
  good (mult_table n i x y table) (fun t => length t = (i - 1 + 2 * n)%nat /\ table_ok t).
Proof.
  intros Hx Hy HXY. induction n as [|n IH]; intros i table Hi L Hn Ev HT.
  { apply good_ret. split; [lia|exact HT]. }
  cbn [mult_table].
  assert (Hh : Z.of_nat (i / 2 - 1) + 1 = Z.of_nat i / 2) by (rewrite Nat2Z.inj_sub, Nat2Z.inj_div by (apply (Nat.div_le_lower_bound i 2 1); lia); lia).
  assert (Ee : 2 * (Z.of_nat i / 2) = Z.of_nat i).
  { apply Nat.even_spec in Ev. destruct Ev as [h ->]. lia. }
  eapply good_bind.
  { apply mP_double. apply (HT (i / 2 - 1)%nat).
    rewrite L. pose proof (Nat.div_lt i 2). lia. }
  cbv beta. rewrite Hh, Ee. intros d Hd.
  eapply good_bind.
  { apply (good_mixed c Hcp Hv d x y X Y _ Hd Hx Hy).
    - apply mP_ne. unfold sm2_N. lia.
    - change (fval X) with (px c (Aff _ X Y)). rewrite HXY.
      intros E. apply (mP_px (Z.of_nat i) 1); try (unfold sm2_N; lia).
      rewrite mP_1. exact E. }
  intros r Hr. rewrite HXY in Hr.
  eapply good_weaken.
  { apply IH; try lia.
    - rewrite app_length, L. cbn [length]. lia.
    - rewrite Nat.even_add, Ev. reflexivity.
    - intros j Hj. rewrite app_length in Hj. cbn [length] in Hj.
      destruct (Nat.lt_ge_cases j (length table)) as [Hlt|Hge].
      + rewrite app_nth1 by exact Hlt. apply HT. exact Hlt.
      + rewrite app_nth2 by exact Hge. unfold jentry.
        destruct (j - length table)%nat as [|[|k]] eqn:Ej; [| |lia]; cbn [nth].
        * replace (Z.of_nat j + 1) with (Z.of_nat i) by lia. exact Hd.
        * replace (Z.of_nat j + 1) with (Z.of_nat i + 1) by lia. rewrite <- mP_add, mP_1. exact Hr. }
  cbv beta. intros t [Lt Ht]. split; [lia|exact Ht].
Qed.

Lemma jrel_rows t Q : jrel t Q -> row9 (fst (fst t)) /\ row9 (snd (fst t)) /\ row9 (snd t).
Proof.
  destruct t as [[a b] d]. intros (x & y & z & [Ha _] & [Hb' _] & [Hd _] & _).
  repeat split; cbn [fst snd]; apply fe_ok_row9; assumption.
Qed.

Lemma surjt (t : jpoint) : (fst (fst t), snd (fst t), snd t) = t.
Proof. destruct t as [[? ?] ?]. reflexivity. Qed.
Lemma map15 {A B} (f : A -> B) l : length l = 15%nat -> Z.of_nat (length (map f l)) = 15.
Proof. rewrite map_length. intros ->. reflexivity. Qed.
Lemma mult_step_good table index a st :
  0 <= index < 16 -> length table = 15%nat -> table_ok table ->
  0 <= a -> a = 0 \/ 15 < a -> a + index < sm2_N -> acc_is a st ->
  good (mult_step table index st) (fun st' => acc_is (a + index) st' /\ acc_zero (a + index) st').
Proof.
  intros Hi L HT Ha Ha' Hae [Hinf Hacc]. destruct st as [acc inf]. cbn [fst snd] in *. subst inf.
  assert (R : forall t, In t table -> row9 (fst (fst t)) /\ row9 (snd (fst t)) /\ row9 (snd t)).
  { intros t It. apply (In_nth _ _ (fe_zero, fe_zero, fe_zero)) in It as (j & Hj & <-).
    eapply jrel_rows. apply (HT j Hj). }
  assert (R1 : Forall row9 (map (fun e : jpoint => fst (fst e)) table)).
  { apply Forall_forall. intros r Ir. apply in_map_iff in Ir as (t & <- & It). apply (R t It). }
  assert (R2 : Forall row9 (map (fun e : jpoint => snd (fst e)) table)).
  { apply Forall_forall. intros r Ir. apply in_map_iff in Ir as (t & <- & It). apply (R t It). }
  assert (R3 : Forall row9 (map (@snd _ _) table)).
  { apply Forall_forall. intros r Ir. apply in_map_iff in Ir as (t & <- & It). apply (R t It). }
  unfold mult_step.
  destruct (Z.eqb_spec index 0) as [Ei|Ei].
  - rewrite Ei, Z.add_0_r. cbn [negb andb].
    assert (S0 : select_jacobian table 0 = (fe_zero, fe_zero, fe_zero)).
    { unfold select_jacobian.
      rewrite !select_0; try exact R1; try exact R2; try exact R3; try (rewrite (map15 _ _ L); clear; lia).
      reflexivity. }
    rewrite S0.
    eapply good_bind; [apply (good_kept _ _ (fun _ => True)); discriminate|].
    intros t _. cbv zeta. apply good_ret. unfold copy_if, acc_is, acc_zero. cbn [fst snd negb].
    rewrite andb_true_r.
    split; [split; [reflexivity|]|].
    + intros N. destruct (Z.eqb_spec a 0); [contradiction|]. apply Hacc. exact N.
    + intros ->. cbn [Z.eqb]. exists fe_zero, (F 0). split; [reflexivity|apply fv_zero; exact Hcp].
  - cbn [negb andb].
    assert (HE : jentry (nth (Z.to_nat (index - 1)) table (fe_zero, fe_zero, fe_zero)) index).
    { replace index with (Z.of_nat (Z.to_nat (index - 1)) + 1) at 2 by lia. apply HT. lia. }
    assert (S0 : select_jacobian table index = nth (Z.to_nat (index - 1)) table (fe_zero, fe_zero, fe_zero)).
    { unfold select_jacobian. rewrite !select_from_spec; try exact R1; try exact R2; try exact R3; try (rewrite (map15 _ _ L)); try (clear - Hi Ei; lia).
      set (d := (fe_zero, fe_zero, fe_zero)).
      change fe_zero with (fst (fst d)) at 1. change fe_zero with (snd (fst d)) at 1. change fe_zero with (snd d).
      rewrite (map_nth (fun e : jpoint => fst (fst e))), (map_nth (fun e : jpoint => snd (fst e))), (map_nth snd).
      exact (surjt (nth (Z.to_nat (index - 1)) table d)). }
    rewrite S0. set (t0 := nth (Z.to_nat (index - 1)) table (fe_zero, fe_zero, fe_zero)) in *.
    clearbody t0. clear S0.
    eapply good_bind.
    { apply (good_kept _ _ (fun t => jrel (snd t) ((a + index) ** P))). intros M.
      destruct (Z.eqb_spec a 0) as [Za|Za]; [discriminate|].
      eapply good_weaken.
      - apply (good_add c Hcp Hca Hv acc t0 (a ** P) (index ** P)); auto using mP_on.
      - cbv beta. intros t [Ht _]. rewrite <- mP_add. apply Ht. intros E. apply mP_inj in E; lia. }
    intros t Ht. cbv zeta. apply good_ret. unfold copy_if, acc_is, acc_zero. cbn [fst snd negb].
    rewrite andb_false_r. replace (a + index =? 0) with false by lia.
    split; [split; [reflexivity|]|intros; lia]. intros _.
    destruct (Z.eqb_spec a 0) as [Za|Za]; cbn [negb] in *.
    + subst a. rewrite Z.add_0_l. exact HE.
    + apply Ht. reflexivity.
Qed.

Lemma mult_loop_good table K : length table = 15%nat -> table_ok table -> 0 <= K < sm2_N ->
  forall n i st, i + Z.of_nat n = 64 -> 0 <= i ->
  acc_is (K / 16 ^ (64 - i)) st -> (i <> 0 -> acc_zero (K / 16 ^ (64 - i)) st) -> (i = 0 -> n <> O) ->
  good (mult_loop n table (z2le 32 K) i st) (fun st' => acc_is K st' /\ acc_zero K st').
Proof.
  intros L HT HK. induction n as [|n IH]; intros i st Hn Hi Hst Hz H0.
  { apply good_ret. replace (64 - i) with 0 in * by lia. rewrite Z.pow_0_r, Z.div_1_r in *.
    split; [exact Hst|]. apply Hz. lia. }
  cbn [mult_loop]. cbv zeta.
  destruct (mult_index_spec K i) as [Hidx HKi]; [clear - HK; lia|clear - Hn Hi; lia|].
  set (a := K / 16 ^ (64 - i)) in *.
  assert (Ha : 0 <= a) by (apply (div_pow_le 16 K (64 - i)); clear - HK Hn; lia).
  assert (HKb : K / 16 ^ (63 - i) <= K) by (apply (div_pow_le 16 K (63 - i)); clear - HK Hn; lia).
  assert (Ha0 : i = 0 -> a = 0).
  { intros ->. unfold a. apply Z.div_small. split; [apply HK|].
    eapply Z.lt_trans; [apply HK|reflexivity]. }
  clearbody a.
  set (idx := mult_index (z2le 32 K) i) in *. clearbody idx.
  assert (HaN : 16 * a + idx < sm2_N) by (rewrite <- HKi; clear - HKb HK; lia).
  eapply (good_bind _ _ (fun acc => acc_is (16 * a) (acc, snd st))).
  { destruct Hst as [Hs1 Hs2].
    destruct (Z.eqb_spec i 0) as [Ei|Ei].
    - apply good_ret. rewrite (Ha0 Ei) in *. split; cbn [fst snd]; [exact Hs1|]. intros N. exfalso. apply N. reflexivity.
    - eapply good_weaken.
      + apply (good_kept _ _ (fun t => jrel t ((16 * a) ** P))). intros M.
        assert (Na : a <> 0). { rewrite Hs1 in M. clear - M. lia. }
        replace (16 * a) with (2 * (2 * (2 * (2 * a)))) by (clear; lia).
        do 4 (eapply good_bind; [|let t := fresh "t" in let Ht := fresh "Ht" in intros t Ht; apply mP_double; exact Ht]).
        apply good_ret. auto.
      + cbv beta. intros t Ht. split; cbn [fst snd].
        * rewrite Hs1. clear. lia.
        * intros N. apply Ht. rewrite Hs1. clear - N. lia. }
  cbv beta. intros acc Hacc.
  eapply good_bind.
  { apply (mult_step_good table idx (16 * a)); auto; clear - Ha; lia. }
  cbv beta. intros st' [H1 H2]. apply IH.
  - clear - Hn. lia.
  - clear - Hi. lia.
  - replace (64 - (i + 1)) with (63 - i) by (clear; lia). rewrite HKi. exact H1.
  - intros _. replace (64 - (i + 1)) with (63 - i) by (clear; lia). rewrite HKi. exact H2.
  - clear - Hi. lia.
Qed.

Lemma affine_zero t d z : t = (fe_zero, fe_zero, d) -> fv d z ->
  good (sm2_to_affine t) (fun r => r = (0, 0)).
Proof.
  intros -> Hd. eapply good_weaken.
  - apply (good_affine c Hcp Hv _ (if fp_dec z (F 0) then pinf c else paff c 0 0)).
    exists (F 0), (F 0), z. split; [apply fv_zero; exact Hcp|]. split; [apply fv_zero; exact Hcp|].
    split; [exact Hd|]. destruct (fp_dec z (F 0)) as [->|N]; [apply jac_0|].
    rewrite (jac_ne _ _ _ _ fp_dec _ _ _ N). unfold paff.
    f_equal; field; exact N.
  - cbv beta. intros r ->. destruct (fp_dec z (F 0)); [reflexivity|].
    rewrite px_paff, py_paff, Zmod_0_l. reflexivity.
Qed.

Lemma scalar_mult_good x y X Y k : fv x X -> fv y Y -> Aff _ X Y = P -> bytes_ok k ->
  good (let* r := sm2_scalar_mult x y (sm2_get_scalar k) in sm2_to_affine r)
    (fun r => r = (px c (scalar_of k ** P), py c (scalar_of k ** P))).
Proof.
  intros Hx Hy HXY Hk. rewrite (get_scalar_spec k Hk).
  pose proof (scalar_of_range k) as HK. set (K := scalar_of k) in *. clearbody K. clear k Hk.
  unfold sm2_scalar_mult.
  eapply good_bind with (Q := fun r => jrel r (K ** P) \/ (K = 0 /\ exists d z, r = (fe_zero, fe_zero, d) /\ fv d z)).
  - eapply good_bind.
    { apply (mult_table_good x y X Y Hx Hy HXY 7 2 [(x, y, sm2_one)]); try reflexivity; try lia.
      intros j Hj. cbn [length] in Hj. assert (j = O) as -> by (clear - Hj; lia). cbn [nth]. unfold jentry.
      change (Z.of_nat 0 + 1) with 1. rewrite mP_1, <- HXY. apply jrel_aff; assumption. }
    cbv beta. intros table [L HT].
    eapply good_bind.
    { apply (mult_loop_good table K L HT HK 64 0); try reflexivity; try discriminate.
      - replace (K / 16 ^ (64 - 0)) with 0.
        + split; cbn [fst snd]; [reflexivity|]. intros N. exfalso. apply N. reflexivity.
        + symmetry. apply Z.div_small. split; [apply HK|]. eapply Z.lt_trans; [apply HK|reflexivity].
      - intros N. exfalso. apply N. reflexivity. }
    cbv beta. intros st [[_ H1] H2]. apply good_ret.
    destruct (Z.eq_dec K 0) as [E|E]; [right; split; [exact E|exact (H2 E)]|left; exact (H1 E)].
  - cbv beta. intros r [Hr|(E & d & z & Er & Hd)].
    + apply good_affine; assumption.
    + rewrite E. exact (affine_zero r d z Er Hd).
Qed.
End Point.

(** ** ScalarBaseMult: eight 32-bit words in parallel *)
Fixpoint hval (ds : list Z) : Z := match ds with [] => 0 | d :: ds' => d + 2 ^ 32 * hval ds' end.
Definition words (K : Z) : list Z := map (fun j => (K / 2 ^ (32 * j)) mod 2 ^ 32) [0; 1; 2; 3; 4; 5; 6; 7].
Definition prefix (K i : Z) : Z := hval (map (fun w => w / 2 ^ (32 - i)) (words K)).
Definition wbit (K i j : Z) : Z := (K / 2 ^ (32 * j + 31 - i)) mod 2.

Lemma wbit_range K i j : 0 <= wbit K i j <= 1.
Proof. unfold wbit. lia. Qed.
Lemma hval_words K : 0 <= K < 2 ^ 256 -> hval (words K) = K.
Proof.
  intros HK.
  assert (E : forall j j', 0 <= j -> j' = j + 1 -> K / 2 ^ (32 * j) = (K / 2 ^ (32 * j)) mod 2 ^ 32 + 2 ^ 32 * (K / 2 ^ (32 * j'))).
  { intros j j' Hj ->. replace (32 * (j + 1)) with (32 * j + 32) by (clear; lia).
    rewrite Z.pow_add_r, <- Z.div_div by (try apply Z.pow_nonzero; clear - Hj; lia).
    generalize (K / 2 ^ (32 * j)). clear. intros M. pose proof (Z.div_mod M (2 ^ 32)). lia. }
  assert (H8 : K / 2 ^ (32 * 8) = 0) by (apply Z.div_small; exact HK).
  assert (H0 : K / 2 ^ (32 * 0) = K) by apply Z.div_1_r.
  rewrite <- H0 at 2. rewrite (E 0 1), (E 1 2), (E 2 3), (E 3 4), (E 4 5), (E 5 6), (E 6 7), (E 7 8) by (clear; lia).
  rewrite H8. reflexivity.
Qed.

Lemma prefix_step K i : 0 <= i < 32 ->
  prefix K (i + 1) = 2 * prefix K i + hval (map (wbit K i) [0; 1; 2; 3; 4; 5; 6; 7]).
Proof.
  intros Hi. unfold prefix, words. cbn [map hval].
  assert (E : forall j, 0 <= j ->
    (K / 2 ^ (32 * j)) mod 2 ^ 32 / 2 ^ (32 - (i + 1)) =
    2 * ((K / 2 ^ (32 * j)) mod 2 ^ 32 / 2 ^ (32 - i)) + wbit K i j).
  { intros j Hj. unfold wbit. replace (32 * j + 31 - i) with (32 * j + (31 - i)) by lia.
    rewrite Z.pow_add_r, <- Z.div_div by (try apply Z.pow_nonzero; try apply Z.pow_pos_nonneg; lia).
    set (M := K / 2 ^ (32 * j)). clearbody M.
    replace (2 ^ (32 - i)) with (2 ^ (31 - i) * 2) by (rewrite Z.mul_comm, <- Z.pow_succ_r by lia; f_equal; lia).
    rewrite <- Z.div_div by (try apply Z.pow_nonzero; lia).
    replace (32 - (i + 1)) with (31 - i) by lia.
    assert (EM : (M / 2 ^ (31 - i)) mod 2 = (M mod 2 ^ 32 / 2 ^ (31 - i)) mod 2).
    { rewrite <- !Z.testbit_spec' by lia. f_equal. symmetry. apply Z.mod_pow2_bits_low. lia. }
    rewrite EM. generalize (M mod 2 ^ 32 / 2 ^ (31 - i)). intros q. lia. }
  rewrite !E by lia. lia.
Qed.

Lemma prefix_0 K : prefix K 0 = 0.
Proof.
  unfold prefix, words. cbn [map hval]. change (32 - 0) with 32.
  repeat match goal with |- context [?a mod 2 ^ 32 / 2 ^ 32] =>
    rewrite (Z.div_small (a mod 2 ^ 32) (2 ^ 32)) by (apply Z.mod_pos_bound; reflexivity) end.
  reflexivity.
Qed.
Lemma prefix_32 K : 0 <= K < 2 ^ 256 -> prefix K 32 = K.
Proof.
  intros HK. unfold prefix. change (32 - 32) with 0. rewrite Z.pow_0_r.
  rewrite <- (hval_words K HK) at 2. f_equal. rewrite <- (map_id (words K)) at 2.
  apply map_ext. intros a. apply Z.div_1_r.
Qed.
Lemma hval_mono (f g : Z -> Z) ds : (forall d, In d ds -> 0 <= f d <= g d) -> 0 <= hval (map f ds) <= hval (map g ds).
Proof.
  induction ds as [|d ds IH]; intros H; cbn [map hval]; [lia|].
  pose proof (H d (or_introl eq_refl)). specialize (IH (fun x Hx => H x (or_intror Hx))). lia.
Qed.
Lemma prefix_le K i : 0 <= K < 2 ^ 256 -> 0 <= i <= 32 -> 0 <= prefix K i <= K.
Proof.
  intros HK Hi. pose proof (hval_words K HK) as E. rewrite <- (map_id (words K)) in E.
  assert (M : 0 <= prefix K i <= hval (map (fun x => x) (words K))); [|rewrite E in M; exact M].
  apply hval_mono. intros w Hw.
  assert (0 <= w) by (unfold words in Hw; apply in_map_iff in Hw as (j & <- & _); apply Z.mod_pos_bound; reflexivity).
  apply div_pow_le; lia.
Qed.

Lemma hval_inj : forall ds es, length ds = length es ->
  Forall (fun d => 0 <= d < 2 ^ 32) ds -> Forall (fun d => 0 <= d < 2 ^ 32) es -> hval ds = hval es -> ds = es.
Proof.
  induction ds as [|d ds IH]; intros [|e es] L HD HE E; try discriminate; [reflexivity|].
  inversion HD; inversion HE; subst. cbn [hval] in E.
  assert (d = e /\ hval ds = hval es) as [-> E'] by lia.
  f_equal. apply IH; auto.
Qed.

Definition e_even (K i : Z) : Z :=
  hval [wbit K i 0; 0; wbit K i 2; 0; wbit K i 4; 0; wbit K i 6; 0].
Definition e_odd (K i : Z) : Z :=
  hval [0; wbit K i 1; 0; wbit K i 3; 0; wbit K i 5; 0; wbit K i 7].

Lemma base_index_spec K i h : 0 <= K -> 0 <= i < 32 -> h = 0 \/ h = 1 ->
  base_index (z2le 32 K) i (32 * h) =
  wbit K i h + 2 * wbit K i (h + 2) + 4 * wbit K i (h + 4) + 8 * wbit K i (h + 6).
Proof.
  intros HK Hi Hh. unfold base_index. rewrite !get_bit_spec by lia.
  assert (W : forall j b, b = 32 * j + 31 - i -> (K / 2 ^ b) mod 2 = wbit K i j) by (intros j b ->; reflexivity).
  rewrite (W h), (W (h + 2)), (W (h + 4)), (W (h + 6)) by lia. clear W.
  pose proof (wbit_range K i h) as B0. pose proof (wbit_range K i (h + 2)) as B1.
  pose proof (wbit_range K i (h + 4)) as B2. pose proof (wbit_range K i (h + 6)) as B3.
  generalize dependent (wbit K i h). generalize dependent (wbit K i (h + 2)).
  generalize dependent (wbit K i (h + 4)). generalize dependent (wbit K i (h + 6)).
  clear. intros a Ha b Hb' d Hd e He.
  assert (a = 0 \/ a = 1) as [-> | ->] by lia; assert (b = 0 \/ b = 1) as [-> | ->] by lia;
  assert (d = 0 \/ d = 1) as [-> | ->] by lia; assert (e = 0 \/ e = 1) as [-> | ->] by lia; reflexivity.
Qed.

Lemma bits4 a b d e : 0 <= a <= 1 -> 0 <= b <= 1 -> 0 <= d <= 1 -> 0 <= e <= 1 ->
  let i := a + 2 * b + 4 * d + 8 * e in
  0 <= i < 16 /\ (i = 0 -> a = 0 /\ b = 0 /\ d = 0 /\ e = 0) /\
  tab_scalar 0 i = hval [a; 0; b; 0; d; 0; e; 0] /\ tab_scalar 1 i = hval [0; a; 0; b; 0; d; 0; e].
Proof.
  intros Ha Hb' Hd He.
  assert (a = 0 \/ a = 1) as [-> | ->] by lia; assert (b = 0 \/ b = 1) as [-> | ->] by lia;
  assert (d = 0 \/ d = 1) as [-> | ->] by lia; assert (e = 0 \/ e = 1) as [-> | ->] by lia;
  cbv zeta; (split; [lia|]); (split; [lia|]); split; vm_compute; reflexivity.
Qed.

Lemma e_sum K i : hval (map (wbit K i) [0; 1; 2; 3; 4; 5; 6; 7]) = e_even K i + e_odd K i.
Proof. unfold e_even, e_odd. cbn [map hval]. lia. Qed.

Lemma word_prefix K i w : In w (words K) -> 0 <= i < 32 -> 0 <= 2 * (w / 2 ^ (32 - i)) < 2 ^ 32.
Proof.
  intros Hw Hi.
  assert (0 <= w < 2 ^ 32) by (unfold words in Hw; apply in_map_iff in Hw as (j & <- & _); apply Z.mod_pos_bound; reflexivity).
  assert (w / 2 ^ (32 - i) < 2 ^ i).
  { apply Z.div_lt_upper_bound; [apply Z.pow_pos_nonneg; lia|]. rewrite <- Z.pow_add_r by lia.
    replace (32 - i + i) with 32 by lia. lia. }
  assert (0 <= w / 2 ^ (32 - i)) by (apply Z.div_pos; [lia|apply Z.pow_pos_nonneg; lia]).
  assert (2 ^ i <= 2 ^ 31) by (apply Z.pow_le_mono_r; lia). lia.
Qed.

Lemma prefix_list K i : exists v0 v1 v2 v3 v4 v5 v6 v7,
  (0 <= i < 32 -> Forall (fun v => 0 <= 2 * v < 2 ^ 32) [v0; v1; v2; v3; v4; v5; v6; v7]) /\
  prefix K i = hval [v0; v1; v2; v3; v4; v5; v6; v7].
Proof.
  unfold prefix. 
  assert (H : forall w, In w (words K) -> 0 <= i < 32 -> 0 <= 2 * (w / 2 ^ (32 - i)) < 2 ^ 32) by (intros; apply (word_prefix K); auto).
  unfold words in *. cbn [map In] in *. do 8 eexists. split; [|reflexivity].
  intros Hi. repeat constructor; apply H; auto 12.
Qed.

Lemma double_ne_even K i : 0 <= i < 32 -> 0 < 2 * prefix K i -> 2 * prefix K i <> e_even K i.
Proof.
  intros Hi Hp E. destruct (prefix_list K i) as (v0 & v1 & v2 & v3 & v4 & v5 & v6 & v7 & HF & HV).
  specialize (HF Hi). rewrite HV in *. unfold e_even in E.
  pose proof (wbit_range K i 0) as B0. pose proof (wbit_range K i 2) as B2.
  pose proof (wbit_range K i 4) as B4. pose proof (wbit_range K i 6) as B6.
  generalize dependent (wbit K i 0). generalize dependent (wbit K i 2).
  generalize dependent (wbit K i 4). generalize dependent (wbit K i 6).
  intros b6 B6 b4 B4 b2 B2 b0 E B0.
  assert (E' : hval [2 * v0; 2 * v1; 2 * v2; 2 * v3; 2 * v4; 2 * v5; 2 * v6; 2 * v7] = hval [b0; 0; b2; 0; b4; 0; b6; 0]).
  { rewrite <- E. cbn [hval]. clear. lia. }
  repeat match goal with H : Forall _ (_ :: _) |- _ => inversion H; clear H; subst end.
  apply hval_inj in E'; [|reflexivity| |].
  - pose proof (f_equal (fun l => nth 0 l 0) E') as E0.
    pose proof (f_equal (fun l => nth 1 l 0) E') as E1.
    pose proof (f_equal (fun l => nth 2 l 0) E') as E2.
    pose proof (f_equal (fun l => nth 3 l 0) E') as E3.
    pose proof (f_equal (fun l => nth 4 l 0) E') as E4.
    pose proof (f_equal (fun l => nth 5 l 0) E') as E5.
    pose proof (f_equal (fun l => nth 6 l 0) E') as E6.
    pose proof (f_equal (fun l => nth 7 l 0) E') as E7.
    cbn [nth] in E0, E1, E2, E3, E4, E5, E6, E7.
    assert (v0 = 0) by (clear - E0 B0; lia). assert (v1 = 0) by (clear - E1; lia). assert (v2 = 0) by (clear - E2 B2; lia).
    assert (v3 = 0) by (clear - E3; lia). assert (v4 = 0) by (clear - E4 B4; lia). assert (v5 = 0) by (clear - E5; lia).
    assert (v6 = 0) by (clear - E6 B6; lia). assert (v7 = 0) by (clear - E7; lia). subst.
    cbn [hval] in Hp. clear - Hp. lia.
  - repeat constructor; lia.
  - repeat constructor; lia.
Qed.

Lemma sum_ne_odd K i : 0 <= i < 32 -> 0 < e_odd K i -> 2 * prefix K i + e_even K i <> e_odd K i.
Proof.
  intros Hi Hp E. destruct (prefix_list K i) as (v0 & v1 & v2 & v3 & v4 & v5 & v6 & v7 & HF & HV).
  specialize (HF Hi). rewrite HV in *. unfold e_even, e_odd in *.
  pose proof (wbit_range K i 0) as B0. pose proof (wbit_range K i 1) as B1. pose proof (wbit_range K i 2) as B2.
  pose proof (wbit_range K i 3) as B3. pose proof (wbit_range K i 4) as B4. pose proof (wbit_range K i 5) as B5.
  pose proof (wbit_range K i 6) as B6. pose proof (wbit_range K i 7) as B7.
  generalize dependent (wbit K i 0). generalize dependent (wbit K i 1). generalize dependent (wbit K i 2).
  generalize dependent (wbit K i 3). generalize dependent (wbit K i 4). generalize dependent (wbit K i 5).
  generalize dependent (wbit K i 6). generalize dependent (wbit K i 7).
  intros b7 B7 b6 B6 b5 B5 b4 B4 b3 B3 b2 B2 b1 Hp B1 b0 E B0.
  repeat match goal with H : Forall _ (_ :: _) |- _ => inversion H; clear H; subst end.
  assert (E' : hval [2 * v0 + b0; 2 * v1; 2 * v2 + b2; 2 * v3; 2 * v4 + b4; 2 * v5; 2 * v6 + b6; 2 * v7] = hval [0; b1; 0; b3; 0; b5; 0; b7]).
  { rewrite <- E. cbn [hval]. clear. lia. }
  apply hval_inj in E'; [|reflexivity| |].
  - pose proof (f_equal (fun l => nth 0 l 0) E') as E0.
    pose proof (f_equal (fun l => nth 1 l 0) E') as E1.
    pose proof (f_equal (fun l => nth 2 l 0) E') as E2.
    pose proof (f_equal (fun l => nth 3 l 0) E') as E3.
    pose proof (f_equal (fun l => nth 4 l 0) E') as E4.
    pose proof (f_equal (fun l => nth 5 l 0) E') as E5.
    pose proof (f_equal (fun l => nth 6 l 0) E') as E6.
    pose proof (f_equal (fun l => nth 7 l 0) E') as E7.
    cbn [nth] in E0, E1, E2, E3, E4, E5, E6, E7.
    assert (Z1 : b1 = 0) by (clear - E1 B1; lia). assert (Z3 : b3 = 0) by (clear - E3 B3; lia).
    assert (Z5 : b5 = 0) by (clear - E5 B5; lia). assert (Z7 : b7 = 0) by (clear - E7 B7; lia).
    rewrite Z1, Z3, Z5, Z7 in Hp. cbn [hval] in Hp. clear - Hp. lia.
  - repeat constructor; lia.
  - repeat constructor; lia.
Qed.

Hypothesis Htab : forall half i, half = O \/ half = 1%nat -> 1 <= i <= 15 ->
  entry (w_G c) (nth (Z.to_nat i - 1) (sm2_table half) (fe_zero, fe_zero)) (tab_scalar half i).
Local Notation G := (w_G c).

Lemma table_rows half : half = O \/ half = 1%nat -> length (sm2_table half) = 15%nat /\
  Forall row9 (map fst (sm2_table half)) /\ Forall row9 (map snd (sm2_table half)).
Proof.
  intros H.
  assert (L : length (sm2_table half) = 15%nat) by (destruct H as [-> | ->]; reflexivity).
  split; [exact L|].
  assert (R : forall t, In t (sm2_table half) -> row9 (fst t) /\ row9 (snd t)).
  { intros t It. apply (In_nth _ _ (fe_zero, fe_zero)) in It as (j & Hj & <-). rewrite L in Hj.
    destruct (Htab half (Z.of_nat j + 1) H ltac:(lia)) as (x & y & [Hx _] & [Hy _] & _).
    replace (Z.to_nat (Z.of_nat j + 1) - 1)%nat with j in Hx, Hy by lia.
    split; apply fe_ok_row9; assumption. }
  split; apply Forall_forall; intros r Ir; apply in_map_iff in Ir as (t & <- & It); apply (R t It).
Qed.

Definition idx_ok (half : nat) (i e : Z) : Prop :=
  0 <= i < 16 /\ (i = 0 -> e = 0) /\ (i <> 0 -> 0 < e /\ tab_scalar half i = e).
Lemma even_idx K i : 0 <= K -> 0 <= i < 32 -> idx_ok 0 (base_index (z2le 32 K) i 0) (e_even K i).
Proof.
  intros HK Hi. pose proof (base_index_spec K i 0 HK Hi (or_introl eq_refl)) as E.
  change (32 * 0) with 0 in E. change (0 + 2) with 2 in E. change (0 + 4) with 4 in E. change (0 + 6) with 6 in E.
  rewrite E. clear E. unfold e_even.
  pose proof (wbit_range K i 0) as B0. pose proof (wbit_range K i 2) as B2.
  pose proof (wbit_range K i 4) as B4. pose proof (wbit_range K i 6) as B6.
  destruct (bits4 _ _ _ _ B0 B2 B4 B6) as (H1 & H2 & H3 & _).
  split; [exact H1|]. split.
  - intros E. destruct (H2 E) as (-> & -> & -> & ->). reflexivity.
  - intros N. split; [|exact H3]. cbn [hval]. clear - N B0 B2 B4 B6. lia.
Qed.
Lemma odd_idx K i : 0 <= K -> 0 <= i < 32 -> idx_ok 1 (base_index (z2le 32 K) i 32) (e_odd K i).
Proof.
  intros HK Hi. pose proof (base_index_spec K i 1 HK Hi (or_intror eq_refl)) as E.
  change (32 * 1) with 32 in E. change (1 + 2) with 3 in E. change (1 + 4) with 5 in E. change (1 + 6) with 7 in E.
  rewrite E. clear E. unfold e_odd.
  pose proof (wbit_range K i 1) as B0. pose proof (wbit_range K i 3) as B2.
  pose proof (wbit_range K i 5) as B4. pose proof (wbit_range K i 7) as B6.
  destruct (bits4 _ _ _ _ B0 B2 B4 B6) as (H1 & H2 & _ & H3).
  split; [exact H1|]. split.
  - intros E. destruct (H2 E) as (-> & -> & -> & ->). reflexivity.
  - intros N. split; [|exact H3]. cbn [hval]. clear - N B0 B2 B4 B6. lia.
Qed.

Lemma table_step half i e a st : half = O \/ half = 1%nat -> idx_ok half i e ->
  0 <= a -> a + e < sm2_N -> (0 < a -> 0 < e -> a <> e) -> acc_is G a st ->
  good (base_step (sm2_table half) i st) (fun st' => acc_is G (a + e) st' /\ acc_zero (a + e) st').
Proof.
  intros Hh (H1 & H2 & H3) Ha Hae Hne Hst.
  destruct (table_rows half Hh) as (L & R1 & R2).
  assert (H3' : i <> 0 -> 0 < e /\ entry G (nth (Z.to_nat i - 1) (sm2_table half) (fe_zero, fe_zero)) e).
  { intros N. destruct (H3 N) as [He Et]. split; [exact He|]. rewrite <- Et. apply Htab; [exact Hh|].
    clear - H1 N. lia. }
  apply (base_step_good G (G_on c Hv) (G_ne c) (sm2_table half) i a e st H1 L R1 R2 H2 H3' Ha Hae).
  - intros Hpos. destruct (Z.eq_dec i 0) as [E|E].
    + rewrite (H2 E). clear - Hpos. lia.
    + apply Hne; [exact Hpos|]. apply (H3 E).
  - exact Hst.
Qed.

Lemma base_loop_good K : 0 <= K < sm2_N -> forall n i st, i + Z.of_nat n = 32 -> 0 <= i ->
  acc_is G (prefix K i) st -> (i <> 0 -> acc_zero (prefix K i) st) -> (i = 0 -> n <> O) ->
  good (base_loop n (z2le 32 K) i st) (fun st' => acc_is G K st' /\ acc_zero K st').
Proof.
  intros HK. 
  assert (HK2 : 0 <= K < 2 ^ 256) by (split; [apply HK|eapply Z.lt_trans; [apply HK|reflexivity]]).
  induction n as [|n IH]; intros i st Hn Hi Hst Hz H0.
  { apply good_ret. assert (i = 32) as -> by (clear - Hn; lia).
    rewrite prefix_32 in * by exact HK2. split; [exact Hst|]. apply Hz. discriminate. }
  cbn [base_loop].
  assert (Hi' : 0 <= i < 32) by (clear - Hn Hi; lia).
  pose proof (prefix_step K i Hi') as Hstep. rewrite e_sum in Hstep.
  pose proof (prefix_le K (i + 1) HK2 ltac:(clear - Hi'; lia)) as Hle. rewrite Hstep in Hle.
  pose proof (double_ne_even K i Hi') as Hne0. pose proof (sum_ne_odd K i Hi') as Hne1.
  pose proof (even_idx K i (proj1 HK) Hi') as HI0. pose proof (odd_idx K i (proj1 HK) Hi') as HI1.
  assert (Ha : 0 <= prefix K i) by (apply (prefix_le K i HK2); clear - Hi'; lia).
  assert (Ha0 : i = 0 -> prefix K i = 0) by (intros ->; apply prefix_0).
  set (a := prefix K i) in *. clearbody a.
  set (e0 := e_even K i) in *. set (e1 := e_odd K i) in *. clearbody e0 e1.
  set (i0 := base_index (z2le 32 K) i 0) in *. set (i1 := base_index (z2le 32 K) i 32) in *. clearbody i0 i1.
  assert (P0 : 0 <= e0). { destruct HI0 as (_ & A & B). destruct (Z.eq_dec i0 0) as [E|E]; [rewrite (A E); clear; lia|destruct (B E); clear - H; lia]. }
  assert (P1 : 0 <= e1). { destruct HI1 as (_ & A & B). destruct (Z.eq_dec i1 0) as [E|E]; [rewrite (A E); clear; lia|destruct (B E); clear - H; lia]. }
  eapply (good_bind _ _ (fun acc => acc_is G (2 * a) (acc, snd st))).
  { destruct Hst as [Hs1 Hs2]. destruct (Z.eqb_spec i 0) as [Ei|Ei].
    - apply good_ret. rewrite (Ha0 Ei) in *. split; cbn [fst snd]; [exact Hs1|]. intros N. exfalso. apply N. reflexivity.
    - eapply good_weaken.
      + apply (good_kept _ _ (fun t => jrel t ((2 * a) ** G))). intros M.
        assert (Na : a <> 0). { rewrite Hs1 in M. clear - M. lia. }
        apply (mP_double G (G_on c Hv)). auto.
      + cbv beta. intros t Ht. split; cbn [fst snd].
        * rewrite Hs1. clear. lia.
        * intros N. apply Ht. rewrite Hs1. clear - N. lia. }
  cbv beta. intros acc Hacc.
  eapply good_bind.
  { apply (table_step 0 i0 e0 (2 * a) (acc, snd st) (or_introl eq_refl) HI0).
    - clear - Ha. lia.
    - clear - Hle HK P1. lia.
    - intros Hp _. apply Hne0. exact Hp.
    - exact Hacc. }
  cbv beta. intros st1 [Hst1 _].
  eapply good_bind.
  { apply (table_step 1 i1 e1 (2 * a + e0) st1 (or_intror eq_refl) HI1).
    - clear - Ha P0. lia.
    - clear - Hle HK. lia.
    - intros _ Hp. apply Hne1. exact Hp.
    - exact Hst1. }
  cbv beta. intros st2 [H1 H2].
  replace (2 * a + e0 + e1) with (prefix K (i + 1)) in H1, H2 by (rewrite Hstep; clear; lia).
  apply IH.
  - clear - Hn. lia.
  - clear - Hi. lia.
  - exact H1.
  - intros _. exact H2.
  - clear - Hi. lia.
Qed.

Lemma scalar_base_good k : bytes_ok k ->
  good (sm2_ScalarBaseMult k) (fun r => r = (px c (scalar_of k ** G), py c (scalar_of k ** G))).
Proof.
  intros Hk. unfold sm2_ScalarBaseMult, sm2_scalar_base_mult. rewrite (get_scalar_spec k Hk).
  pose proof (scalar_of_range k) as HK. set (K := scalar_of k) in *. clearbody K. clear k Hk.
  eapply good_bind with (Q := fun r => jrel r (K ** G) \/ (K = 0 /\ exists d z, r = (fe_zero, fe_zero, d) /\ fv d z)).
  - eapply good_bind.
    { apply (base_loop_good K HK 32 0); try reflexivity; try discriminate.
      - rewrite prefix_0. split; cbn [fst snd]; [reflexivity|]. intros N. exfalso. apply N. reflexivity.
      - intros N. exfalso. apply N. reflexivity. }
    cbv beta. intros st [[_ H1] H2]. apply good_ret.
    destruct (Z.eq_dec K 0) as [E|E]; [right; split; [exact E|exact (H2 E)]|left; exact (H1 E)].
  - cbv beta. intros r [Hr|(E & d & z & Er & Hd)].
    + apply good_affine; assumption.
    + rewrite E. exact (affine_zero r d z Er Hd).
Qed.

(** ** The operations on affine coordinates *)
Lemma fv_xy P : P <> pinf c -> exists X Y, fv (sm2_from_big (px c P)) X /\ fv (sm2_from_big (py c P)) Y /\ Aff _ X Y = P.
Proof.
  intros N. exists (F (px c P)), (F (py c P)). split; [apply fv_from; exact Hcp|]. split; [apply fv_from; exact Hcp|].
  exact (paff_pxy c P N).
Qed.

Theorem good_ScalarMult P k : w_on c P -> P <> pinf c -> bytes_ok k ->
  good (sm2_ScalarMult (px c P) (py c P) k) (fun r => r = (px c (scalar_of k ** P), py c (scalar_of k ** P))).
Proof.
  intros HP NP Hk. destruct (fv_xy P NP) as (X & Y & Hx & Hy & E).
  exact (scalar_mult_good P HP NP _ _ X Y k Hx Hy E Hk).
Qed.

Lemma jac_of P : w_on c P -> jrel (sm2_jac (px c P) (py c P)) P.
Proof.
  intros HP. unfold sm2_jac, sm2_z_for_affine.
  exists (F (px c P)), (F (py c P)).
  destruct ((px c P =? 0) && (py c P =? 0)) eqn:E.
  - apply (inf_test c Hb P HP) in E.
    exists (F 0). split; [apply fv_from; exact Hcp|]. split; [apply fv_from; exact Hcp|].
    split; [apply fv_from; exact Hcp|]. rewrite E. apply jac_0.
  - assert (N : P <> pinf c) by (intros N; apply (inf_test c Hb P HP) in N; congruence).
    exists (F 1). split; [apply fv_from; exact Hcp|]. split; [apply fv_from; exact Hcp|].
    split; [apply fv_from; exact Hcp|]. rewrite (jac_1 _ _ _ _ _ _ _ _ _ Kf6). exact (paff_pxy c P N).
Qed.

Theorem good_Add P Q : w_on c P -> w_on c Q ->
  good (sm2_Add (px c P) (py c P) (px c Q) (py c Q))
    (fun r => (P <> Q -> r = (px c (w_add c P Q), py c (w_add c P Q))) /\ (P = Q -> r = (0, 0))).
Proof.
  intros HP HQ. unfold sm2_Add.
  destruct (point_dec _ fp_dec P Q) as [E|N].
  - eapply good_bind; [apply (good_add c Hcp Hca Hv _ _ P Q (jac_of P HP) (jac_of Q HQ) HP HQ)|].
    cbv beta. intros r [_ Hr]. eapply good_weaken; [apply good_affine; [exact Hcp|exact Hv|exact (Hr E)]|].
    cbv beta. intros t ->. split; [intros N; contradiction|reflexivity].
  - eapply good_bind; [apply (good_add c Hcp Hca Hv _ _ P Q (jac_of P HP) (jac_of Q HQ) HP HQ)|].
    cbv beta. intros r [Hr _]. eapply good_weaken; [apply good_affine; [exact Hcp|exact Hv|exact (Hr N)]|].
    cbv beta. intros t ->. split; [reflexivity|intros E; contradiction].
Qed.

Theorem good_Double P : w_on c P ->
  good (sm2_Double (px c P) (py c P)) (fun r => r = (px c (w_add c P P), py c (w_add c P P))).
Proof.
  intros HP. unfold sm2_Double.
  eapply good_bind; [apply (good_double c Hcp Hca Hv _ P (jac_of P HP))|].
  cbv beta. intros r Hr. apply good_affine; assumption.
Qed.

Lemma scalar_mod k P : w_on c P -> scalar_of k ** P = be2z k ** P.
Proof.
  intros HP. unfold scalar_of. rewrite <- Hcn. exact (zmul_mod _ _ _ _ _ HW (w_n c) (be2z k) P HP (Hord P HP)).
Qed.

Theorem good_IsOnCurve x y :
  good (sm2_IsOnCurve x y) (fun r => r = true <-> w_on c (paff c x y)).
Proof.
  unfold sm2_IsOnCurve. cbv zeta.
  pose proof (fv_from c Hcp x) as Hx. pose proof (fv_from c Hcp y) as Hy.
  eapply good_bind; [eapply good_square; [exact Hcp|exact Hx]|]. cbv beta. intros a1 H1.
  eapply good_bind; [eapply good_mul; [exact Hcp|exact H1|exact Hx]|]. cbv beta. intros a2 H2.
  eapply good_bind; [eapply good_mul; [exact Hcp|exact (fv_fa c Hcp Hca)|exact Hx]|]. cbv beta. intros a3 H3.
  eapply good_bind; [eapply good_square; [exact Hcp|exact Hy]|]. cbv beta. intros a4 H4.
  apply good_ret.
  rewrite (fv_eq c Hcp _ _ _ _ (fv_add c Hcp _ _ _ _ (fv_add c Hcp _ _ _ _ H2 H3) (fv_fb c Hcp Hcb)) H4).
  unfold w_on, paff. cbn [on_curve]. split; intros E; symmetry; exact E.
Qed.
End WithCurve.

(** ** Instances for the SM2 curve *)
Lemma sm2_a_eq : fp_of (w_p sm2p256) (w_a sm2p256) = fp_of (w_p sm2p256) sm2_a.
Proof. apply fp_of_eq. vm_compute. reflexivity. Qed.
Lemma sm2_b_ne : w_b sm2p256 mod w_p sm2p256 <> 0.
Proof. vm_compute. discriminate. Qed.
Lemma sm2_tab_entry half i : half = O \/ half = 1%nat -> 1 <= i <= 15 ->
  entry sm2p256 (w_G sm2p256) (nth (Z.to_nat i - 1) (sm2_table half) (fe_zero, fe_zero)) (tab_scalar half i).
Proof.
  intros Hh Hi.
  assert (E : exists x y, row_is (nth (Z.to_nat i - 1) (sm2_table half) (fe_zero, fe_zero)) x y = true /\
    w_mul sm2p256 (tab_scalar half i) (w_G sm2p256) = paff sm2p256 x y).
  { destruct Hh as [-> | ->]; [apply tab0|apply tab1]; exact Hi. }
  destruct E as (x & y & R & E). exists (fp_of (w_p sm2p256) x), (fp_of (w_p sm2p256) y).
  apply andb_true_iff in R as [R1 R2]. apply fv_const with (c := sm2p256) in R1, R2.
  split; [exact R1|]. split; [exact R2|]. rewrite E. reflexivity.
Qed.

Theorem sm2_Add_good P Q : w_on sm2p256 P -> w_on sm2p256 Q ->
  good (sm2_Add (px sm2p256 P) (py sm2p256 P) (px sm2p256 Q) (py sm2p256 Q))
    (fun r => (P <> Q -> r = (px sm2p256 (w_add sm2p256 P Q), py sm2p256 (w_add sm2p256 P Q)))
              /\ (P = Q -> r = (0, 0))).
Proof. exact (good_Add sm2p256 eq_refl sm2_a_eq sm2p256_valid sm2_b_ne P Q). Qed.
Theorem sm2_Double_good P : w_on sm2p256 P ->
  good (sm2_Double (px sm2p256 P) (py sm2p256 P))
    (fun r => r = (px sm2p256 (w_add sm2p256 P P), py sm2p256 (w_add sm2p256 P P))).
Proof. exact (good_Double sm2p256 eq_refl sm2_a_eq sm2p256_valid sm2_b_ne P). Qed.
Theorem sm2_IsOnCurve_good x y :
  good (sm2_IsOnCurve x y) (fun r => r = true <-> w_on sm2p256 (paff sm2p256 x y)).
Proof. exact (good_IsOnCurve sm2p256 eq_refl sm2_a_eq eq_refl x y). Qed.
Theorem sm2_ScalarMult_good P k : w_on sm2p256 P -> P <> pinf sm2p256 -> bytes_ok k ->
  good (sm2_ScalarMult (px sm2p256 P) (py sm2p256 P) k)
    (fun r => r = (px sm2p256 (w_mul sm2p256 (be2z k) P), py sm2p256 (w_mul sm2p256 (be2z k) P))).
Proof.
  intros HP NP Hk.
  rewrite <- (scalar_mod sm2p256 eq_refl sm2p256_valid sm2p256_order k P HP).
  exact (good_ScalarMult sm2p256 eq_refl sm2_a_eq eq_refl sm2p256_valid sm2_b_ne sm2p256_order P k HP NP Hk).
Qed.
Theorem sm2_ScalarBaseMult_good k : bytes_ok k ->
  good (sm2_ScalarBaseMult k)
    (fun r => r = (px sm2p256 (w_mul sm2p256 (be2z k) (w_G sm2p256)), py sm2p256 (w_mul sm2p256 (be2z k) (w_G sm2p256)))).
Proof.
  intros Hk.
  rewrite <- (scalar_mod sm2p256 eq_refl sm2p256_valid sm2p256_order k (w_G sm2p256) (wv_Gon _ sm2p256_valid)).
  exact (scalar_base_good sm2p256 eq_refl sm2_a_eq eq_refl sm2p256_valid sm2_b_ne sm2p256_order sm2_tab_entry k Hk).
Qed.
