(** One elimination step of the SM2 Montgomery reduction. *)
Require Import ZArith List Bool Lia.
Require Import Verif.Base Verif.ModelSM2F.
Import ListNotations.
Open Scope Z_scope.

Lemma u32_eq x : u32 x = x mod 2 ^ 32. Proof. exact (Z.land_ones x 32 ltac:(lia)). Qed.
Lemma u64_eq x : u64 x = x mod 2 ^ 64. Proof. exact (Z.land_ones x 64 ltac:(lia)). Qed.
Lemma m28_eq x : m28 x = x mod 2 ^ 28. Proof. exact (Z.land_ones x 28 ltac:(lia)). Qed.
Lemma m29_eq x : m29 x = x mod 2 ^ 29. Proof. exact (Z.land_ones x 29 ltac:(lia)). Qed.
Lemma shr_eq x n : 0 <= n -> shr x n = x / 2 ^ n. Proof. exact (Z.shiftr_div_pow2 x n). Qed.
Lemma shl_eq x n : 0 <= n -> shl x n = u32 (x * 2 ^ n).
Proof. intros H. unfold shl. rewrite Z.shiftl_mul_pow2 by exact H. reflexivity. Qed.
Lemma m29_bound x : 0 <= m29 x < 2 ^ 29. Proof. rewrite m29_eq. apply Z.mod_pos_bound. reflexivity. Qed.
Lemma m28_bound x : 0 <= m28 x < 2 ^ 28. Proof. rewrite m28_eq. apply Z.mod_pos_bound. reflexivity. Qed.

Lemma u32_small x : 0 <= x < 4294967296 -> u32 x = x.
Proof. intros H. rewrite u32_eq. apply Z.mod_small. exact H. Qed.
Lemma u64_small x : 0 <= x < 18446744073709551616 -> u64 x = x.
Proof. intros H. rewrite u64_eq. apply Z.mod_small. exact H. Qed.
Lemma mask_land x c : 0 < x < 2147483648 -> 0 <= c < 4294967296 -> Z.land c (nonZeroToAllOnes x) = c.
Proof.
  intros Hx Hc. (unfold nonZeroToAllOnes; rewrite ?shr_eq by lia). rewrite (u32_small (x - 1)) by lia.
  change (2 ^ 31) with 2147483648. rewrite (Z.div_small (x - 1)) by lia.
  change (u32 (0 - 1)) with (Z.ones 32). rewrite Z.land_ones by lia. apply Z.mod_small. exact Hc.
Qed.

(** Splitting a shifted limb at bit 29 or 28. *)
Lemma mod_pow_mod x a b : 0 <= a <= b -> (x mod 2 ^ b) mod 2 ^ a = x mod 2 ^ a.
Proof.
  intros H. symmetry. apply Znumtheory.Zmod_div_mod; try (apply Z.pow_pos_nonneg; lia).
  exists (2 ^ (b - a)). rewrite <- Z.pow_add_r by lia. f_equal. lia.
Qed.
Lemma split_at x k n : 0 <= k <= n -> 2 ^ n * (x / 2 ^ (n - k)) + (x * 2 ^ k) mod 2 ^ n = x * 2 ^ k.
Proof.
  intros H. assert (E : 2 ^ n = 2 ^ (n - k) * 2 ^ k) by (rewrite <- Z.pow_add_r by lia; f_equal; lia).
  assert (P1 : 0 < 2 ^ k) by (apply Z.pow_pos_nonneg; lia).
  assert (P2 : 0 < 2 ^ (n - k)) by (apply Z.pow_pos_nonneg; lia).
  rewrite E, Z.mul_mod_distr_r by lia.
  pose proof (Z.div_mod x (2 ^ (n - k)) ltac:(lia)). nia.
Qed.

Ltac nowrap1 :=
  match goal with |- context [u32 ?e] =>
    lazymatch e with context [u32 _] => fail | context [if _ then _ else _] => fail | _ => rewrite (u32_small e) by lia end end.
Ltac step1 :=
  nowrap1 || (match goal with |- context [if ?a <? ?b then _ else _] =>
    lazymatch a with context [u32 _] => fail | _ => destruct (Z.ltb_spec a b) end end; cbv beta iota).

Lemma m29_shl x k : 0 <= k <= 29 -> m29 (shl x k) = (x * 2 ^ k) mod 2 ^ 29.
Proof. intros H. (rewrite ?shl_eq by lia; rewrite ?m29_eq; rewrite ?u32_eq). apply mod_pow_mod. lia. Qed.
Lemma m28_shl x k : 0 <= k <= 28 -> m28 (shl x k) = (x * 2 ^ k) mod 2 ^ 28.
Proof. intros H. (rewrite ?shl_eq by lia; rewrite ?m28_eq; rewrite ?u32_eq). apply mod_pow_mod. lia. Qed.

Definition bound (b : list Z) (t : list Z) : Prop := Forall2 (fun x y => 0 <= y <= x) b t.
(* in units of 2^27 *)
Definition u27 := 134217728.

Lemma red_even_spec t0 t1 t2 t3 t4 t5 t6 t7 t8 t9 :
  0 <= t0 <= 14 * u27 -> 0 <= t1 <= 7 * u27 -> 0 <= t2 <= 9 * u27 -> 0 <= t3 <= 4 * u27 ->
  0 <= t4 <= 8 * u27 -> 0 <= t5 <= 4 * u27 -> 0 <= t6 <= 8 * u27 -> 0 <= t7 <= 4 * u27 ->
  0 <= t8 <= 6 * u27 -> 0 <= t9 <= 18 * u27 -> even_safe t0 t8 t9 = true ->
  exists s1 s2 s3 s4 s5 s6 s7 s8 s9,
    sm2_red_even t0 t1 t2 t3 t4 t5 t6 t7 t8 t9 = [s1; s2; s3; s4; s5; s6; s7; s8; s9] /\
    sm2_horner true [t0; t1; t2; t3; t4; t5; t6; t7; t8; t9] + m29 t0 * sm2_P =
      2 ^ 29 * sm2_horner false [s1; s2; s3; s4; s5; s6; s7; s8; s9] /\
    0 <= s1 <= 8 * u27 /\ 0 <= s2 <= 13 * u27 /\ 0 <= s3 <= 5 * u27 /\ 0 <= s4 <= 8 * u27 /\
    0 <= s5 <= 4 * u27 /\ 0 <= s6 <= 8 * u27 /\ 0 <= s7 <= 4 * u27 /\ 0 <= s8 <= 8 * u27 /\ 0 <= s9 <= t9 + 2 * u27.
Proof.
  unfold u27. intros B0 B1 B2 B3 B4 B5 B6 B7 B8 B9 Hs.
  unfold sm2_red_even. cbv zeta.
  assert (Hx : 0 <= m29 t0 < 536870912) by exact (m29_bound t0).
  assert (D0 : t0 = 536870912 * shr t0 29 + m29 t0) by (rewrite m29_eq, shr_eq by lia; apply Z.div_mod; discriminate).
  assert (D1 : 0 <= shr t0 29 <= 3).
  { lia. }
  unfold even_safe in Hs.
  set (x := m29 t0) in *. clearbody x. set (c0 := shr t0 29) in *. clearbody c0. subst t0.
  rewrite !m29_shl, !m28_shl by lia. rewrite ?shr_eq by lia.
  pose proof (split_at x 7 29 ltac:(lia)) as S7. pose proof (Z.mod_pos_bound (x * 2 ^ 7) (2 ^ 29) eq_refl) as L7.
  pose proof (split_at x 10 28 ltac:(lia)) as S10. pose proof (Z.mod_pos_bound (x * 2 ^ 10) (2 ^ 28) eq_refl) as L10.
  pose proof (split_at x 24 28 ltac:(lia)) as S24. pose proof (Z.mod_pos_bound (x * 2 ^ 24) (2 ^ 28) eq_refl) as L24.
  pose proof (split_at x 28 29 ltac:(lia)) as S28. pose proof (Z.mod_pos_bound (x * 2 ^ 28) (2 ^ 29) eq_refl) as L28.
  assert (G24 : (x * 2 ^ 24) mod 2 ^ 28 <= 251658240).
  { change (2 ^ 28) with (2 ^ 4 * 2 ^ 24). rewrite Z.mul_mod_distr_r by discriminate.
    pose proof (Z.mod_pos_bound x (2 ^ 4) eq_refl). lia. }
  change (29 - 7) with 22 in S7. change (28 - 10) with 18 in S10. change (28 - 24) with 4 in S24. change (29 - 28) with 1 in S28.
  set (l7 := (x * 2 ^ 7) mod 2 ^ 29) in *. set (l10 := (x * 2 ^ 10) mod 2 ^ 28) in *.
  set (l24 := (x * 2 ^ 24) mod 2 ^ 28) in *. set (l28 := (x * 2 ^ 28) mod 2 ^ 29) in *.
  set (h22 := x / 2 ^ 22) in *. set (h18 := x / 2 ^ 18) in *. set (h4 := x / 2 ^ 4) in *. set (h1 := x / 2 ^ 1) in *.
  clearbody l7 l10 l24 l28 h22 h18 h4 h1.
  change (2 ^ 29) with 536870912 in *. change (2 ^ 28) with 268435456 in *. change (2 ^ 24) with 16777216 in *.
  change (2 ^ 10) with 1024 in *. change (2 ^ 7) with 128 in *.
  assert (H22 : 0 <= h22 <= 127) by lia. assert (H18 : 0 <= h18 <= 2047) by lia.
  assert (H4 : 0 <= h4 <= 33554431) by lia. assert (H1 : 0 <= h1 <= 268435455) by lia.
  destruct (Z.ltb_spec 0 x) as [X|X].
  2:{ assert (x = 0) by lia. subst x. rewrite u32_small by lia.
      do 9 eexists. split; [reflexivity|]. cbn [sm2_horner negb]. unfold sm2_P. repeat split; lia. }
  assert (W : x = 1 -> t8 + 268435456 < 536870912 -> t9 <> 0).
  { intros -> W2 ->. rewrite Z.eqb_refl in Hs. rewrite (proj2 (Z.ltb_lt _ _) W2) in Hs. discriminate. }
  clear Hs.
  assert (W' : t8 + l28 < 536870912 -> 0 <= t9 + (h1 - 1)).
  { intros W2. destruct (Z.eq_dec x 1) as [E|E]; [|lia]. assert (l28 = 268435456) by lia. specialize (W E). lia. }
  assert (W9 : forall y, t9 + Z.land (u32 y) (nonZeroToAllOnes x) = t9 + u32 y).
  { intros y. rewrite mask_land; [reflexivity|lia|]. rewrite u32_eq. apply Z.mod_pos_bound. reflexivity. }
  rewrite !W9. rewrite !mask_land by lia.
  assert (W10 : t8 + l28 < 536870912 -> u32 (t9 + u32 (h1 - 1)) = t9 + (h1 - 1)).
  { intros W2. rewrite ?u32_eq. rewrite Zplus_mod_idemp_r. apply Z.mod_small. specialize (W' W2). lia. }
  repeat step1.
  all: try rewrite W10 by assumption.
  all: do 9 eexists; split; [reflexivity|]; cbn [sm2_horner negb]; unfold sm2_P.
  all: repeat split; lia.
Qed.

Lemma red_odd_spec t0 t1 t2 t3 t4 t5 t6 t7 t8 t9 :
  0 <= t0 <= 8 * u27 -> 0 <= t1 <= 13 * u27 -> 0 <= t2 <= 5 * u27 -> 0 <= t3 <= 8 * u27 ->
  0 <= t4 <= 4 * u27 -> 0 <= t5 <= 8 * u27 -> 0 <= t6 <= 4 * u27 -> 0 <= t7 <= 8 * u27 ->
  0 <= t8 <= 4 * u27 -> 0 <= t9 <= 4 * u27 ->
  exists s1 s2 s3 s4 s5 s6 s7 s8 s9,
    sm2_red_odd t0 t1 t2 t3 t4 t5 t6 t7 t8 t9 = [s1; s2; s3; s4; s5; s6; s7; s8; s9] /\
    sm2_horner false [t0; t1; t2; t3; t4; t5; t6; t7; t8; t9] + m28 t0 * sm2_P =
      2 ^ 28 * sm2_horner true [s1; s2; s3; s4; s5; s6; s7; s8; s9] /\
    0 <= s1 <= 14 * u27 /\ 0 <= s2 <= 7 * u27 /\ 0 <= s3 <= 9 * u27 /\ 0 <= s4 <= 4 * u27 /\
    0 <= s5 <= 8 * u27 /\ 0 <= s6 <= 4 * u27 /\ 0 <= s7 <= 8 * u27 /\ 0 <= s8 <= 4 * u27 /\ 0 <= s9 <= 6 * u27.
Proof.
  unfold u27. intros B0 B1 B2 B3 B4 B5 B6 B7 B8 B9.
  unfold sm2_red_odd. cbv zeta.
  assert (Hx : 0 <= m28 t0 < 268435456) by exact (m28_bound t0).
  assert (D0 : t0 = 268435456 * shr t0 28 + m28 t0) by (rewrite m28_eq, shr_eq by lia; apply Z.div_mod; discriminate).
  assert (D1 : 0 <= shr t0 28 <= 4).
  { lia. }
  set (x := m28 t0) in *. clearbody x. set (c0 := shr t0 28) in *. clearbody c0. subst t0.
  rewrite !m29_shl, !m28_shl by lia. rewrite ?shr_eq by lia.
  pose proof (split_at x 7 28 ltac:(lia)) as S7. pose proof (Z.mod_pos_bound (x * 2 ^ 7) (2 ^ 28) eq_refl) as L7.
  pose proof (split_at x 11 29 ltac:(lia)) as S11. pose proof (Z.mod_pos_bound (x * 2 ^ 11) (2 ^ 29) eq_refl) as L11.
  pose proof (split_at x 25 29 ltac:(lia)) as S25. pose proof (Z.mod_pos_bound (x * 2 ^ 25) (2 ^ 29) eq_refl) as L25.
  assert (G25 : (x * 2 ^ 25) mod 2 ^ 29 <= 503316480).
  { change (2 ^ 29) with (2 ^ 4 * 2 ^ 25). rewrite Z.mul_mod_distr_r by discriminate.
    pose proof (Z.mod_pos_bound x (2 ^ 4) eq_refl). lia. }
  change (28 - 7) with 21 in S7. change (29 - 11) with 18 in S11. change (29 - 25) with 4 in S25.
  set (l7 := (x * 2 ^ 7) mod 2 ^ 28) in *. set (l11 := (x * 2 ^ 11) mod 2 ^ 29) in *.
  set (l25 := (x * 2 ^ 25) mod 2 ^ 29) in *.
  set (h21 := x / 2 ^ 21) in *. set (h18 := x / 2 ^ 18) in *. set (h4 := x / 2 ^ 4) in *.
  clearbody l7 l11 l25 h21 h18 h4.
  change (2 ^ 29) with 536870912 in *. change (2 ^ 28) with 268435456 in *. change (2 ^ 25) with 33554432 in *.
  change (2 ^ 11) with 2048 in *. change (2 ^ 7) with 128 in *.
  assert (H21 : 0 <= h21 <= 127) by lia. assert (H18 : 0 <= h18 <= 1023) by lia.
  assert (H4 : 0 <= h4 <= 16777215) by lia.
  destruct (Z.ltb_spec 0 x) as [X|X].
  2:{ assert (x = 0) by lia. subst x. rewrite u32_small by lia.
      do 9 eexists. split; [reflexivity|]. cbn [sm2_horner negb]. unfold sm2_P. repeat split; lia. }
  rewrite (u32_small (x - 1)) by lia. rewrite !mask_land by lia.
  repeat step1.
  all: do 9 eexists; split; [reflexivity|]; cbn [sm2_horner negb]; unfold sm2_P.
  all: repeat split; lia.
Qed.

