(** The SM2 field arithmetic: addition, subtraction and the conversions are
    exact; multiplication and squaring are exact unless one elimination step
    underflows, and an underflow is reachable. *)
Require Import ZArith List Bool Lia.
Require Import Verif.Base Verif.ModelSM2F Verif.ProofSM2R.
Import ListNotations.
Open Scope Z_scope.

Lemma horner10 ev a0 a1 a2 a3 a4 a5 a6 a7 a8 a9 rest :
  sm2_horner ev (a0 :: a1 :: a2 :: a3 :: a4 :: a5 :: a6 :: a7 :: a8 :: a9 :: rest) =
  sm2_horner ev [a0; a1; a2; a3; a4; a5; a6; a7; a8; a9] + 2 ^ 285 * sm2_horner ev rest.
Proof. destruct ev; cbn [sm2_horner negb]; ring. Qed.
Lemma horner9 (ev : bool) a1 a2 a3 a4 a5 a6 a7 a8 a9 rest :
  sm2_horner ev (a1 :: a2 :: a3 :: a4 :: a5 :: a6 :: a7 :: a8 :: a9 :: rest) =
  sm2_horner ev [a1; a2; a3; a4; a5; a6; a7; a8; a9] + (if ev then 2 ^ 257 else 2 ^ 256) * sm2_horner (negb ev) rest.
Proof. destruct ev; cbn [sm2_horner negb]; ring. Qed.

(** The first nine limbs of the window at an even position. *)
Definition win (a0 a1 a2 a3 a4 a5 a6 a7 a8 : Z) : Prop :=
  0 <= a0 <= 14 * u27 /\ 0 <= a1 <= 7 * u27 /\ 0 <= a2 <= 9 * u27 /\ 0 <= a3 <= 4 * u27 /\
  0 <= a4 <= 8 * u27 /\ 0 <= a5 <= 4 * u27 /\ 0 <= a6 <= 8 * u27 /\ 0 <= a7 <= 4 * u27 /\ 0 <= a8 <= 6 * u27.

Lemma red_pair n t0 t1 t2 t3 t4 t5 t6 t7 t8 t9 t10 rest :
  win t0 t1 t2 t3 t4 t5 t6 t7 t8 -> 0 <= t9 <= 2 * u27 -> 0 <= t10 <= 4 * u27 ->
  sm2_red_safe (S (S n)) true (t0 :: t1 :: t2 :: t3 :: t4 :: t5 :: t6 :: t7 :: t8 :: t9 :: t10 :: rest) = true ->
  exists s0 s1 s2 s3 s4 s5 s6 s7 s8 q,
    let s := s0 :: s1 :: s2 :: s3 :: s4 :: s5 :: s6 :: s7 :: s8 :: rest in
    sm2_red (S (S n)) true (t0 :: t1 :: t2 :: t3 :: t4 :: t5 :: t6 :: t7 :: t8 :: t9 :: t10 :: rest) = sm2_red n true s /\
    sm2_red_safe n true s = true /\
    sm2_horner true (t0 :: t1 :: t2 :: t3 :: t4 :: t5 :: t6 :: t7 :: t8 :: t9 :: t10 :: rest) + q * sm2_P = 2 ^ 57 * sm2_horner true s /\
    0 <= q < 2 ^ 57 /\
    win s0 s1 s2 s3 s4 s5 s6 s7 s8.
Proof.
  unfold win. intros (B0 & B1 & B2 & B3 & B4 & B5 & B6 & B7 & B8) B9 B10 Hs.
  cbn [sm2_red_safe negb] in Hs. apply andb_true_iff in Hs. destruct Hs as [Hs1 Hs2].
  destruct (red_even_spec t0 t1 t2 t3 t4 t5 t6 t7 t8 t9 B0 B1 B2 B3 B4 B5 B6 B7 B8) as
    (r1 & r2 & r3 & r4 & r5 & r6 & r7 & r8 & r9 & E & V & C1 & C2 & C3 & C4 & C5 & C6 & C7 & C8 & C9);
    [unfold u27 in *; lia|exact Hs1|].
  cbn [sm2_red negb]. rewrite E in Hs2 |- *. cbn [app] in Hs2 |- *.
  apply andb_true_iff in Hs2. destruct Hs2 as [_ Hs2].
  destruct (red_odd_spec r1 r2 r3 r4 r5 r6 r7 r8 r9 t10 C1 C2 C3 C4 C5 C6 C7 C8) as
    (s1 & s2 & s3 & s4 & s5 & s6 & s7 & s8 & s9 & E' & V' & D1 & D2 & D3 & D4 & D5 & D6 & D7 & D8 & D9);
    [unfold u27 in *; lia|exact B10|].
  rewrite E' in Hs2 |- *. cbn [app] in Hs2 |- *.
  exists s1, s2, s3, s4, s5, s6, s7, s8, s9, (m29 t0 + 2 ^ 29 * m28 r1). cbv zeta.
  split; [reflexivity|]. split; [exact Hs2|]. split.
  - rewrite (horner10 true). rewrite (horner9 true s1). cbn [negb].
    assert (X : sm2_horner false (r1 :: r2 :: r3 :: r4 :: r5 :: r6 :: r7 :: r8 :: r9 :: t10 :: nil) =
                sm2_horner false [r1; r2; r3; r4; r5; r6; r7; r8; r9] + 2 ^ 256 * t10)
      by (rewrite (horner9 false); cbn [sm2_horner negb]; ring).
    rewrite X in V'. clear X. cbn [sm2_horner negb] in V, V' |- *.
    set (P := sm2_P) in *. clearbody P. clear - V V'. lia.
  - split; [|repeat split; first [apply D1|apply D2|apply D3|apply D4|apply D5|apply D6|apply D7|apply D8|apply D9]].
    pose proof (Z.mod_pos_bound t0 (2 ^ 29) eq_refl). pose proof (Z.mod_pos_bound r1 (2 ^ 28) eq_refl).
    (rewrite ?m28_eq; rewrite ?m29_eq). lia.
Qed.

Lemma chain5 (h0 h1 h2 h3 h4 h5 q1 q2 q3 q4 m P : Z) :
  h0 + q1 * P = 2 ^ 57 * h1 -> h1 + q2 * P = 2 ^ 57 * h2 -> h2 + q3 * P = 2 ^ 57 * h3 ->
  h3 + q4 * P = 2 ^ 57 * h4 -> h4 + m * P = 2 ^ 29 * h5 ->
  h0 + (q1 + 2 ^ 57 * (q2 + 2 ^ 57 * (q3 + 2 ^ 57 * (q4 + 2 ^ 57 * m)))) * P = 2 ^ 257 * h5.
Proof. intros. lia. Qed.

Definition small_even x := 0 <= x <= 4 * u27.
Definition small_odd x := 0 <= x <= 2 * u27.

(** The whole loop: 2^257 times the remaining limbs, modulo P. *)
Lemma red_all t0 t1 t2 t3 t4 t5 t6 t7 t8 t9 t10 t11 t12 t13 t14 t15 t16 t17 :
  small_even t0 -> small_odd t1 -> small_even t2 -> small_odd t3 -> small_even t4 -> small_odd t5 ->
  small_even t6 -> small_odd t7 -> small_even t8 -> small_odd t9 -> small_even t10 -> small_odd t11 ->
  small_even t12 -> small_odd t13 -> small_even t14 -> small_odd t15 -> small_even t16 -> 0 <= t17 <= 17 * u27 ->
  let tmp := [t0; t1; t2; t3; t4; t5; t6; t7; t8; t9; t10; t11; t12; t13; t14; t15; t16; t17] in
  sm2_red_safe 9 true tmp = true ->
  exists s1 s2 s3 s4 s5 s6 s7 s8 s9 q,
    sm2_red 9 true tmp = [s1; s2; s3; s4; s5; s6; s7; s8; s9] /\
    sm2_horner true tmp + q * sm2_P = 2 ^ 257 * sm2_horner false [s1; s2; s3; s4; s5; s6; s7; s8; s9] /\
    0 <= q < 2 ^ 257 /\
    0 <= s1 <= 8 * u27 /\ 0 <= s2 <= 13 * u27 /\ 0 <= s3 <= 5 * u27 /\ 0 <= s4 <= 8 * u27 /\
    0 <= s5 <= 4 * u27 /\ 0 <= s6 <= 8 * u27 /\ 0 <= s7 <= 4 * u27 /\ 0 <= s8 <= 8 * u27 /\ 0 <= s9 <= 19 * u27.
Proof.
  unfold small_even, small_odd. intros H0 H1 H2 H3 H4 H5 H6 H7 H8 H9 H10 H11 H12 H13 H14 H15 H16 H17.
  cbv zeta. intros Hs.
  assert (W : win t0 t1 t2 t3 t4 t5 t6 t7 t8) by (unfold win, u27 in *; lia).
  destruct (red_pair 7 _ _ _ _ _ _ _ _ _ _ _ _ W H9 H10 Hs) as
    (a0 & a1 & a2 & a3 & a4 & a5 & a6 & a7 & a8 & q1 & E1 & S1 & V1 & Q1 & W1). cbv zeta in E1, S1, V1.
  destruct (red_pair 5 _ _ _ _ _ _ _ _ _ _ _ _ W1 H11 H12 S1) as
    (b0 & b1 & b2 & b3 & b4 & b5 & b6 & b7 & b8 & q2 & E2 & S2 & V2 & Q2 & W2). cbv zeta in E2, S2, V2.
  destruct (red_pair 3 _ _ _ _ _ _ _ _ _ _ _ _ W2 H13 H14 S2) as
    (c0 & c1 & c2 & c3 & c4 & c5 & c6 & c7 & c8 & q3 & E3 & S3 & V3 & Q3 & W3). cbv zeta in E3, S3, V3.
  destruct (red_pair 1 _ _ _ _ _ _ _ _ _ _ _ _ W3 H15 H16 S3) as
    (d0 & d1 & d2 & d3 & d4 & d5 & d6 & d7 & d8 & q4 & E4 & S4 & V4 & Q4 & W4). cbv zeta in E4, S4, V4.
  destruct W4 as (B0 & B1 & B2 & B3 & B4 & B5 & B6 & B7 & B8).
  cbn [sm2_red_safe negb] in S4. apply andb_true_iff in S4. destruct S4 as [S4 _].
  destruct (red_even_spec d0 d1 d2 d3 d4 d5 d6 d7 d8 t17 B0 B1 B2 B3 B4 B5 B6 B7 B8) as
    (r1 & r2 & r3 & r4 & r5 & r6 & r7 & r8 & r9 & E & V & C1 & C2 & C3 & C4 & C5 & C6 & C7 & C8 & C9);
    [unfold u27 in *; lia|exact S4|].
  exists r1, r2, r3, r4, r5, r6, r7, r8, r9, (q1 + 2 ^ 57 * (q2 + 2 ^ 57 * (q3 + 2 ^ 57 * (q4 + 2 ^ 57 * m29 d0)))).
  split; [rewrite E1, E2, E3, E4; cbn [sm2_red negb]; rewrite E; reflexivity|].
  split.
  - exact (chain5 _ _ _ _ _ _ _ _ _ _ _ _ V1 V2 V3 V4 V).
  - split; [pose proof (Z.mod_pos_bound d0 (2 ^ 29) eq_refl) as Hm; rewrite ?m29_eq; clear - Q1 Q2 Q3 Q4 Hm; lia|].
    repeat split; try first [apply C1|apply C2|apply C3|apply C4|apply C5|apply C6|apply C7|apply C8|apply C9].
    destruct C9 as [_ C9]. clear - C9 H17. unfold u27 in *. lia.
Qed.

(** ** From the 17 products to 18 limbs *)
Lemma lor_disjoint a k : 0 <= a < 8 -> Z.lor a (k * 2 ^ 3) = a + k * 2 ^ 3.
Proof.
  intros Ha. rewrite <- Z.lxor_lor, <- Z.add_nocarry_lxor; auto.
  all: apply Z.bits_inj'; intros n Hn; rewrite Z.land_spec, Z.bits_0.
  all: destruct (Z_lt_le_dec n 3) as [L|L].
  all: try (rewrite (Z.mul_pow2_bits_low k) by exact L; apply andb_false_r).
  all: replace a with (a mod 2 ^ 3) by (apply Z.mod_small; exact Ha);
       rewrite Z.mod_pow2_bits_high by (clear - L; lia); reflexivity.
Qed.

Lemma lo_div b k : 0 <= k <= 32 -> lo b / 2 ^ k = (b / 2 ^ k) mod 2 ^ (32 - k).
Proof.
  intros H. (unfold lo; rewrite ?u32_eq). replace (2 ^ 32) with (2 ^ k * 2 ^ (32 - k)).
  2:{ rewrite <- Z.pow_add_r by lia. f_equal. lia. }
  assert (0 < 2 ^ k) by (apply Z.pow_pos_nonneg; lia). assert (0 < 2 ^ (32 - k)) by (apply Z.pow_pos_nonneg; lia).
  rewrite Z.rem_mul_r by lia. rewrite Z.add_comm, Z.mul_comm, Z.div_add_l by lia.
  rewrite (Z.div_small (b mod _)) by (apply Z.mod_pos_bound; lia). ring.
Qed.
Lemma hi_spec b : 0 <= b < 2 ^ 64 -> hi b = b / 2 ^ 32.
Proof.
  intros H. (unfold hi; rewrite ?u32_eq; rewrite ?shr_eq by lia). apply Z.mod_small. split; [apply Z.div_pos; lia|].
  apply Z.div_lt_upper_bound; lia.
Qed.
Lemma hi25 b : 0 <= b < 2 ^ 64 -> shr (hi b) 25 = b / 2 ^ 57.
Proof.
  intros H. rewrite hi_spec by exact H. rewrite ?shr_eq by lia. rewrite Z.div_div by lia. reflexivity.
Qed.
Lemma mid b k : (k = 3 \/ k = 4) -> 0 <= b < 2 ^ 64 ->
  shr (lo b) (32 - k) + (hi b * 2 ^ k) mod 2 ^ (25 + k) = (b / 2 ^ (32 - k)) mod 2 ^ (25 + k).
Proof.
  intros Hk H. rewrite ?shr_eq by lia. rewrite lo_div by lia. replace (32 - (32 - k)) with k by lia.
  rewrite hi_spec by exact H.
  rewrite (Z.pow_add_r 2 25 k) by lia. rewrite Z.mul_mod_distr_r by lia.
  rewrite (Z.mul_comm (2 ^ 25)), Z.rem_mul_r by lia. rewrite Z.div_div by lia.
  rewrite <- Z.pow_add_r by lia. replace (32 - k + k) with 32 by lia. lia.
Qed.
Lemma mid_even b : 0 <= b < 2 ^ 64 -> shr (lo b) 29 + m28 (shl (hi b) 3) = (b / 2 ^ 29) mod 2 ^ 28.
Proof. intros H. rewrite m28_shl by lia. apply (mid b 3); auto. Qed.
Lemma mid_odd b : 0 <= b < 2 ^ 64 -> shr (lo b) 28 + m29 (shl (hi b) 4) = (b / 2 ^ 28) mod 2 ^ 29.
Proof. intros H. rewrite m29_shl by lia. apply (mid b 4); auto. Qed.
Lemma m29_lo b : m29 (lo b) = b mod 2 ^ 29.
Proof. (unfold lo; rewrite ?m29_eq; rewrite ?u32_eq). apply mod_pow_mod. lia. Qed.
Lemma m28_lo b : m28 (lo b) = b mod 2 ^ 28.
Proof. (unfold lo; rewrite ?m28_eq; rewrite ?u32_eq). apply mod_pow_mod. lia. Qed.

Fixpoint alt (ev : bool) (l : list Z) : Prop :=
  match l with
  | [] => True
  | x :: l' => (if ev then small_even x else small_odd x) /\ alt (negb ev) l'
  end.
Fixpoint par (ev : bool) (l : list Z) : bool := match l with [] => ev | _ :: l' => par (negb ev) l' end.
Definition b64 (b : Z) : Prop := 0 <= b < 2 ^ 64.

Lemma split_two b w1 w2 : 0 <= w1 -> 0 <= w2 -> (b / 2 ^ w1) mod 2 ^ w2 + 2 ^ w2 * (b / 2 ^ (w1 + w2)) = b / 2 ^ w1.
Proof.
  intros H1 H2. assert (0 < 2 ^ w1) by (apply Z.pow_pos_nonneg; lia). assert (0 < 2 ^ w2) by (apply Z.pow_pos_nonneg; lia).
  rewrite Z.pow_add_r by assumption. rewrite <- Z.div_div by lia.
  pose proof (Z.div_mod (b / 2 ^ w1) (2 ^ w2) ltac:(lia)). lia.
Qed.

Lemma div57 b : b64 b -> 0 <= b / 2 ^ 57 <= 127.
Proof.
  intros H. split; [apply Z.div_pos; unfold b64 in H; lia|].
  assert (b / 2 ^ 57 < 128) by (apply Z.div_lt_upper_bound; unfold b64 in H; lia). lia.
Qed.
Fixpoint lst (bm2 bm1 : Z) (b : list Z) : Z * Z :=
  match b with [] => (bm2, bm1) | bi :: b' => lst bm1 bi b' end.

Lemma split_spec b : forall ev bm2 bm1 carry, b64 bm2 -> b64 bm1 -> Forall b64 b -> 0 <= carry <= 5 ->
  exists r c, sm2_split ev bm2 bm1 b carry = (r, (lst bm2 bm1 b, c)) /\ length r = length b /\ alt ev r /\
    0 <= c <= 5 /\
    sm2_horner ev (r ++ [c + fst (lst bm2 bm1 b) / 2 ^ 57 + snd (lst bm2 bm1 b) / 2 ^ (if par ev b then 28 else 29)]) =
    sm2_horner ev b + carry + bm2 / 2 ^ 57 + bm1 / 2 ^ (if ev then 28 else 29).
Proof.
  induction b as [|bi b IH]; intros ev bm2 bm1 carry H2 H1 Hb Hc.
  - exists [], carry. cbn. repeat split; lia.
  - inversion Hb as [|? ? Hbi Hb']; subst. cbn [sm2_split lst par length].
    set (t := if ev then u32 _ else u32 _).
    assert (Et : t = bm2 / 2 ^ 57 + (if ev then (bm1 / 2 ^ 28) mod 2 ^ 29 else (bm1 / 2 ^ 29) mod 2 ^ 28)
                     + (if ev then bi mod 2 ^ 29 else bi mod 2 ^ 28) + carry /\ 0 <= t < 2 ^ 30 + 200).
    { pose proof (div57 bm2 H2) as D. subst t. destruct ev.
      - rewrite hi25 by exact H2. cbv iota. rewrite <- (Z.add_assoc (bm2 / 2 ^ 57) (shr (lo bm1) 28)).
        rewrite mid_odd by exact H1. rewrite m29_lo.
        pose proof (Z.mod_pos_bound (bm1 / 2 ^ 28) (2 ^ 29) eq_refl). pose proof (Z.mod_pos_bound bi (2 ^ 29) eq_refl).
        rewrite u32_small by lia. lia.
      - rewrite hi25 by exact H2. cbv iota. rewrite <- (Z.add_assoc (bm2 / 2 ^ 57) (shr (lo bm1) 29)).
        rewrite mid_even by exact H1. rewrite m28_lo.
        pose proof (Z.mod_pos_bound (bm1 / 2 ^ 29) (2 ^ 28) eq_refl). pose proof (Z.mod_pos_bound bi (2 ^ 28) eq_refl).
        rewrite u32_small by lia. lia. }
    clearbody t. destruct Et as [Et Bt].
    set (c' := if ev then shr t 29 else shr t 28).
    set (l' := if ev then m29 t else m28 t).
    assert (Hc' : 0 <= c' <= 5 /\ t = (if ev then 2 ^ 29 else 2 ^ 28) * c' + l' /\ (if ev then small_even l' else small_odd l')).
    { subst c' l'. (unfold small_even, small_odd, u27; rewrite ?m28_eq; rewrite ?m29_eq; rewrite ?shr_eq by lia). destruct ev.
      - pose proof (Z.div_mod t (2 ^ 29) ltac:(lia)). pose proof (Z.mod_pos_bound t (2 ^ 29) eq_refl). lia.
      - pose proof (Z.div_mod t (2 ^ 28) ltac:(lia)). pose proof (Z.mod_pos_bound t (2 ^ 28) eq_refl). lia. }
    destruct Hc' as (Bc' & Dt & Sl).
    destruct (IH (negb ev) bm1 bi c' H1 Hbi Hb' Bc') as (r & c & E & L & A & Bc & V).
    rewrite E. exists (l' :: r), c. split; [reflexivity|]. split; [cbn [length]; rewrite L; reflexivity|].
    split; [split; assumption|]. split; [exact Bc|].
    cbn [app sm2_horner]. rewrite V. clear V IH E.
    destruct ev; cbn [negb] in *.
    + pose proof (split_two bm1 28 29 ltac:(lia) ltac:(lia)) as ST. change (28 + 29) with 57 in ST.
      pose proof (Z.div_mod bi (2 ^ 29) ltac:(lia)). lia.
    + pose proof (split_two bm1 29 28 ltac:(lia) ltac:(lia)) as ST. change (29 + 28) with 57 in ST.
      pose proof (Z.div_mod bi (2 ^ 28) ltac:(lia)). lia.
Qed.

(** tmp is a well-formed 18-limb array with the same value. *)
Lemma tmp_spec b0 b1 b' b16 : b64 b0 -> b64 b1 -> Forall b64 b' -> length b' = 14%nat -> 0 <= b16 < 2 ^ 60 ->
  exists r f, sm2_tmp (b0 :: b1 :: b' ++ [b16]) = r ++ [f] /\ length r = 17%nat /\ alt true r /\
    0 <= f <= 17 * u27 /\ sm2_horner true (r ++ [f]) = sm2_horner true (b0 :: b1 :: b' ++ [b16]).
Proof.
  intros H0 H1 Hb L H16. unfold sm2_tmp. cbv zeta.
  set (t1 := u32 _).
  assert (Et : t1 = (b0 / 2 ^ 29) mod 2 ^ 28 + b1 mod 2 ^ 28 /\ 0 <= t1 < 2 ^ 29).
  { subst t1. rewrite m28_lo. rewrite m28_shl by lia.
    assert (E3 : (hi b0 * 2 ^ 3) mod 2 ^ 28 = (hi b0 mod 2 ^ 25) * 2 ^ 3).
    { change (2 ^ 28) with (2 ^ 25 * 2 ^ 3). rewrite Z.mul_mod_distr_r by discriminate. reflexivity. }
    assert (B3 : 0 <= shr (lo b0) 29 < 8).
    { rewrite ?shr_eq by lia. pose proof (Z.mod_pos_bound b0 (2 ^ 32) eq_refl). (unfold lo; rewrite ?u32_eq).
      split; [apply Z.div_pos; lia|apply Z.div_lt_upper_bound; lia]. }
    rewrite E3, lor_disjoint by exact B3. rewrite <- E3, <- m28_shl by lia. rewrite mid_even by exact H0.
    pose proof (Z.mod_pos_bound (b0 / 2 ^ 29) (2 ^ 28) eq_refl). pose proof (Z.mod_pos_bound b1 (2 ^ 28) eq_refl).
    rewrite u32_small by lia. lia. }
  clearbody t1. destruct Et as [Et Bt].
  assert (Bc : 0 <= shr t1 28 <= 5) by (rewrite ?shr_eq by lia; pose proof (Z.div_mod t1 (2 ^ 28) ltac:(lia)); pose proof (Z.mod_pos_bound t1 (2 ^ 28) eq_refl); lia).
  assert (Hb2 : Forall b64 (b' ++ [b16])) by (apply Forall_app; split; [exact Hb|constructor; [unfold b64; lia|constructor]]).
  destruct (split_spec (b' ++ [b16]) true b0 b1 (shr t1 28) H0 H1 Hb2 Bc) as (r & c & E & Lr & A & Bcc & V).
  rewrite E.
  do 15 (destruct b' as [|? b']; try discriminate L). clear L.
  cbn [lst app fst snd par negb] in V |- *. rewrite app_length in Lr. cbn [length] in Lr.
  match type of V with context [c + ?x / 2 ^ 57 + b16 / 2 ^ 29] => set (b15 := x) in * end.
  assert (H15 : b64 b15).
  { subst b15. rewrite Forall_forall in Hb. apply Hb. simpl. tauto. }
  assert (Ef : u32 (shr (hi b15) 25 + shr (lo b16) 29 + shl (hi b16) 3 + c) = c + b15 / 2 ^ 57 + b16 / 2 ^ 29
               /\ 0 <= c + b15 / 2 ^ 57 + b16 / 2 ^ 29 <= 17 * u27).
  { pose proof (div57 b15 H15) as D15.
    assert (B29 : 0 <= b16 / 2 ^ 29 <= 16 * u27).
    { unfold u27. pose proof (Z.div_mod b16 (2 ^ 29) ltac:(lia)). pose proof (Z.mod_pos_bound b16 (2 ^ 29) eq_refl). lia. }
    rewrite hi25 by exact H15. rewrite hi_spec by lia.
    rewrite ?shr_eq by lia. rewrite lo_div by lia. change (32 - 29) with 3.
    assert (Es : shl (b16 / 2 ^ 32) 3 = b16 / 2 ^ 32 * 2 ^ 3).
    { rewrite ?shl_eq by lia. apply u32_small. pose proof (Z.div_mod b16 (2 ^ 32) ltac:(lia)). pose proof (Z.mod_pos_bound b16 (2 ^ 32) eq_refl). lia. }
    rewrite Es.
    assert (Em : (b16 / 2 ^ 29) mod 2 ^ 3 + b16 / 2 ^ 32 * 2 ^ 3 = b16 / 2 ^ 29).
    { rewrite (Z.mul_comm _ (2 ^ 3)). apply (split_two b16 29 3); lia. }
    unfold u27 in *. rewrite u32_small by lia. lia. }
  destruct Ef as [Ef Bf]. rewrite Ef.
  exists (m29 (lo b0) :: m28 t1 :: r), (c + b15 / 2 ^ 57 + b16 / 2 ^ 29).
  split; [reflexivity|]. split; [cbn [length]; rewrite Lr; reflexivity|].
  split.
  { cbn [alt negb]. split; [|split; [|exact A]].
    - (unfold small_even, u27; rewrite ?m29_eq). pose proof (Z.mod_pos_bound (lo b0) (2 ^ 29) eq_refl). lia.
    - (unfold small_odd, u27; rewrite ?m28_eq). pose proof (Z.mod_pos_bound t1 (2 ^ 28) eq_refl). lia. }
  split; [exact Bf|].
  cbn [sm2_horner negb] in V |- *. rewrite <- app_comm_cons. cbn [sm2_horner negb]. rewrite <- app_comm_cons. cbn [sm2_horner negb].
  rewrite V. rewrite m29_lo. (rewrite ?m28_eq in *; rewrite ?shr_eq in * by lia).
  pose proof (Z.div_mod t1 (2 ^ 28) ltac:(lia)). pose proof (Z.div_mod b0 (2 ^ 29) ltac:(lia)).
  pose proof (Z.div_mod b1 (2 ^ 28) ltac:(lia)).
  pose proof (split_two b0 29 28 ltac:(lia) ltac:(lia)) as ST. change (29 + 28) with 57 in ST.
  clear - Et H H2 H3 ST. lia.
Qed.
