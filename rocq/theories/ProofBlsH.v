(** The base field of the BLS code beyond the arithmetic of ModelBlsF: words,
    comparison, inversion, for a build whose arithmetic is exact. *)
From Coq Require Import ZArith List Bool Lia Znumtheory Zpow_facts.
From Verif Require Import Base ModelBlsF SpecBls ProofBlsF ModelBls ProofBlsE SpecBlsG BlsPrime.
Import ListNotations.
Local Open Scope Z_scope.

(** ** Words *)
Lemma lor_disj a b n : 0 <= n -> 0 <= a < 2 ^ n -> Z.lor a (b * 2 ^ n) = a + b * 2 ^ n.
Proof.
  intros Hn Ha. rewrite <- Z.shiftl_mul_pow2 by lia.
  assert (D : Z.land a (Z.shiftl b n) = 0).
  { apply Z.bits_inj'. intros i Hi. rewrite Z.land_spec, Z.bits_0, Z.shiftl_spec by lia.
    destruct (Z_lt_dec i n).
    - rewrite (Z.testbit_neg_r b) by lia. apply andb_false_r.
    - destruct (Z.eq_dec a 0) as [->|N]; [rewrite Z.testbit_0_l; reflexivity|].
      rewrite (Z.bits_above_log2 a i); [reflexivity|lia|]. apply Z.log2_lt_pow2; [lia|].
      apply Z.lt_le_trans with (2 ^ n); [lia|apply Z.pow_le_mono_r; lia]. }
  rewrite <- Z.lxor_lor by exact D. symmetry. apply Z.add_nocarry_lxor, D.
Qed.
Lemma lor_add_lo a b : 0 <= b < 2 -> Z.lor (2 * a) b = 2 * a + b.
Proof. intros H. rewrite Z.lor_comm, (Z.mul_comm 2 a). pose proof (lor_disj b a 1 ltac:(lia) H) as E. rewrite Z.pow_1_r in E. rewrite E. ring. Qed.
Lemma B64_2 : B64 = 2 * 2 ^ 63. Proof. reflexivity. Qed.
Lemma div2_word x y : word x -> 0 <= y -> Z.lor (Z.shiftr x 1) (Z.shiftl y 63 mod B64) = x / 2 + 2 ^ 63 * (y mod 2).
Proof.
  intros Hx Hy. rewrite Z.shiftr_div_pow2, Z.shiftl_mul_pow2 by lia. change (2 ^ 1) with 2.
  replace ((y * 2 ^ 63) mod B64) with ((y mod 2) * 2 ^ 63) by (rewrite B64_2, Z.mul_mod_distr_r by lia; reflexivity).
  rewrite lor_disj; [ring|lia|]. unfold word in Hx. rewrite B64_2 in Hx. split; [apply Z.div_pos; lia|apply Z.div_lt_upper_bound; lia].
Qed.
Lemma bval_nth0 r : words r -> bval r mod 2 = nth 0 r 0 mod 2.
Proof.
  intros W. destruct r as [|y r]; [reflexivity|]. cbn [bval nth].
  rewrite B64_2. replace (y + 2 * 2 ^ 63 * bval r) with (y + (2 ^ 63 * bval r) * 2) by ring. apply Z.mod_add. lia.
Qed.
Lemma nth0_word r : words r -> 0 <= nth 0 r 0.
Proof. intros W. destruct r as [|y r]; [cbn; lia|]. inversion_clear W. apply H. Qed.
Lemma div2_spec e : words e -> words (fe_div2 e) /\ length (fe_div2 e) = length e /\ bval (fe_div2 e) = bval e / 2.
Proof.
  induction e as [|x r IH]; intros W; [repeat split; constructor|]. inversion_clear W as [|? ? Hx Wr].
  destruct (IH Wr) as (W' & L' & V'). cbn [fe_div2 bval length].
  rewrite div2_word by (exact Hx || apply nth0_word, Wr).
  rewrite <- (bval_nth0 r Wr). pose proof (Z.mod_pos_bound (bval r) 2 ltac:(lia)) as M.
  unfold word in Hx. rewrite B64_2 in Hx.
  pose proof (Z.div_mod x 2 ltac:(lia)) as Dx. pose proof (Z.mod_pos_bound x 2 ltac:(lia)) as Mx.
  pose proof (Z.div_mod (bval r) 2 ltac:(lia)) as Dr.
  split; [constructor; [unfold word; rewrite B64_2; clear - Hx Dx Mx M; lia|exact W']|]. split; [congruence|].
  rewrite V'. rewrite B64_2. generalize dependent (2 ^ 63). intros t Ht.
  apply (Z.div_unique _ 2 _ (x mod 2)); [lia|].
  transitivity (2 * (x / 2) + x mod 2 + 2 * t * (2 * (bval r / 2) + bval r mod 2)); [|ring]. rewrite <- Dr, <- Dx. reflexivity.
Qed.
Lemma mul2_spec e : words e -> forall low, 0 <= low <= 1 -> forall r k, fe_mul2 e low = (r, k) ->
  words r /\ length r = length e /\ 0 <= k <= 1 /\ bval r + B64 ^ Z.of_nat (length e) * k = 2 * bval e + low.
Proof.
  induction e as [|x e IH]; intros W low Hl r k E; cbn [fe_mul2] in E.
  - injection E as <- <-. cbn [bval length Z.of_nat]. repeat split; try constructor; lia.
  - inversion_clear W as [|? ? Hx We]. destruct (fe_mul2 e (Z.shiftr x 63)) as [r' k'] eqn:E'.
    rewrite Z.shiftr_div_pow2 in E' by lia. unfold word in Hx. rewrite B64_2 in Hx.
    assert (Hh : 0 <= x / 2 ^ 63 <= 1).
    { split; [apply Z.div_pos; lia|]. assert (x / 2 ^ 63 < 2) by (apply Z.div_lt_upper_bound; lia). lia. }
    destruct (IH We _ Hh _ _ E') as (W' & L' & K' & V').
    assert (EX : Z.lor (Z.shiftl x 1 mod B64) low = 2 * (x mod 2 ^ 63) + low).
    { rewrite Z.shiftl_mul_pow2 by lia. change (2 ^ 1) with 2. rewrite (Z.mul_comm x 2), B64_2, Z.mul_mod_distr_l by lia. apply lor_add_lo. lia. }
    pose proof (Z.mod_pos_bound x (2 ^ 63) ltac:(lia)) as M. pose proof (Z.div_mod x (2 ^ 63) ltac:(lia)) as D.
    rewrite EX in E. apply pair_equal_spec in E. destruct E as [<- <-]. cbn [bval length]. split; [constructor; [unfold word; rewrite B64_2; clear - M Hl; lia|exact W']|].
    split; [congruence|]. split; [exact K'|].
    rewrite Nat2Z.inj_succ, Z.pow_succ_r by lia.
    replace (2 * (x + B64 * bval e) + low) with (2 * x + low + B64 * (2 * bval e + x / 2 ^ 63) - B64 * (x / 2 ^ 63)) by ring.
    rewrite <- V'. rewrite B64_2 at 1 3 4. rewrite B64_2 in *. 
    generalize dependent (2 ^ 63). intros t Ht. intros. clear - D. nia.
Qed.
Lemma cmp_spec : forall a b, length a = length b -> words a -> words b ->
  cmp_ms a b = match bval (rev a) ?= bval (rev b) with Gt => 1 | Lt => -1 | Eq => 0 end.
Proof.
  induction a as [|x a IH]; intros [|y b] L Wa Wb; try discriminate L; [reflexivity|].
  inversion_clear Wa as [|? ? Hx Wa']. inversion_clear Wb as [|? ? Hy Wb']. injection L as L.
  cbn [cmp_ms rev]. rewrite !bval_app, !rev_length, L. cbn [bval].
  pose proof (bval_range (rev a) ltac:(apply Forall_rev; exact Wa')) as Ra.
  pose proof (bval_range (rev b) ltac:(apply Forall_rev; exact Wb')) as Rb. rewrite rev_length in Ra, Rb. rewrite L in Ra.
  rewrite (IH b L Wa' Wb'). generalize dependent (B64 ^ Z.of_nat (length b)). intros t Ra Rb.
  rewrite !Z.mul_0_r, !Z.add_0_r.
  destruct (Z.ltb_spec y x); [|destruct (Z.ltb_spec x y)].
  - rewrite (proj2 (Z.compare_gt_iff _ _)); [reflexivity|]. nia.
  - rewrite (proj2 (Z.compare_lt_iff _ _)); [reflexivity|]. nia.
  - assert (x = y) as -> by lia.
    destruct (Z.compare_spec (bval (rev a)) (bval (rev b))); destruct (Z.compare_spec (bval (rev a) + t * y) (bval (rev b) + t * y)); try reflexivity; lia.
Qed.
Lemma Cmp_spec a b : fe6 a -> fe6 b -> fe_Cmp a b = match bval a ?= bval b with Gt => 1 | Lt => -1 | Eq => 0 end.
Proof.
  intros [La Wa] [Lb Wb]. unfold fe_Cmp. rewrite cmp_spec; [rewrite !rev_involutive; reflexivity| | |].
  - rewrite !rev_length. congruence.
  - apply Forall_rev, Wa.
  - apply Forall_rev, Wb.
Qed.
Lemma Equals_spec : forall a b, fe_Equals a b = true <-> a = b.
Proof.
  induction a as [|x a IH]; intros [|y b]; cbn [fe_Equals]; try (split; congruence).
  rewrite andb_true_iff, IH, Z.eqb_eq. split; [intros [-> ->]; reflexivity|intros E; injection E; auto].
Qed.
Lemma IsEven_spec e : fe6 e -> fe_IsEven e = Z.even (bval e).
Proof.
  intros [_ W]. unfold fe_IsEven. rewrite (Z.land_ones _ 1) by lia. change (2 ^ 1) with 2.
  rewrite Zeven_mod. rewrite (bval_nth0 e W). unfold Zeq_bool. destruct (Z.eqb_spec (nth 0 e 0 mod 2) 0) as [->|N]; [reflexivity|].
  destruct (Z.compare_spec (nth 0 e 0 mod 2) 0); congruence || reflexivity.
Qed.

(** ** Facts about p *)
Lemma p_blsp : bls_p = blsp. Proof. Local Transparent bls_p blsp. reflexivity. Local Opaque bls_p blsp. Qed.
Lemma bls_p_prime : prime bls_p. Proof. rewrite p_blsp. exact blsp_prime. Qed.
Lemma p_odd : Z.even bls_p = false. Proof. Local Transparent bls_p. reflexivity. Local Opaque bls_p. Qed.
Lemma p_size : 2 ^ 380 < bls_p < 2 ^ 381. Proof. Local Transparent bls_p. split; reflexivity. Local Opaque bls_p. Qed.
Lemma p_2R : 2 * bls_p < bls_R. Proof. Local Transparent bls_p bls_R. reflexivity. Local Opaque bls_p bls_R. Qed.
Lemma R2 : bls_R * bls_R = 2 ^ 768. Proof. Local Transparent bls_R. reflexivity. Local Opaque bls_R. Qed.
Lemma one6 : fe6 [1; 0; 0; 0; 0; 0]. Proof. split; [reflexivity|]. repeat constructor; unfold B64; lia. Qed.
Lemma zero6 : fe6 fb_zero. Proof. split; [reflexivity|]. repeat constructor; unfold B64; lia. Qed.
Lemma six_fe6 x : six x = fe6 x. Proof. reflexivity. Qed.

(** ** Inversion: the almost inverse of Kaliski *)
Lemma even_half a : Z.even a = true -> a = 2 * (a / 2).
Proof. intros H. apply Zeven_bool_iff, Zeven_div2 in H. rewrite Z.div2_div in H. exact H. Qed.
Lemma odd_sub_even a b : Z.even a = false -> Z.even b = false -> Z.even (a - b) = true.
Proof. intros A B. rewrite Z.even_sub, A, B. reflexivity. Qed.
Record kinv (p a U V S Rr k : Z) : Prop := {
  ki_U : 1 <= U; ki_V : 0 <= V; ki_S : 1 <= S; ki_R : 0 <= Rr < 2 * p;
  ki_eq : p = U * S + V * Rr;
  ki_r : (a * Rr + U * 2 ^ k) mod p = 0;
  ki_s : (a * S - V * 2 ^ k) mod p = 0;
  ki_g : forall d, (d | U) -> (d | V) -> (d | 1);
  ki_k : 0 <= k }.
Lemma mod_lin p x y c : 0 < p -> y mod p = 0 -> x = c * y -> x mod p = 0.
Proof. intros P H ->. rewrite <- Z.mul_mod_idemp_r, H, Z.mul_0_r by lia. apply Z.mod_0_l. lia. Qed.
Lemma mod_sum p x y z : 0 < p -> y mod p = 0 -> z mod p = 0 -> x = y + z -> x mod p = 0.
Proof. intros P H H' ->. rewrite Z.add_mod, H, H' by lia. apply Z.mod_0_l. lia. Qed.
Section KStep.
Variables p a U V S Rr k : Z.
Hypothesis P : 1 < p.
Hypothesis I : kinv p a U V S Rr k.
Hypothesis V1 : 1 <= V.
Lemma ki_small : Rr + S <= p /\ S <= p.
Proof using All. destruct I. clear - ki_eq0 ki_U0 ki_S0 ki_R0 V1. nia. Qed.
Lemma ki_pow : 2 ^ (k + 1) = 2 * 2 ^ k.
Proof using I. rewrite Z.pow_add_r by (pose proof (ki_k _ _ _ _ _ _ _ I); lia). ring. Qed.
Lemma step_u : Z.even U = true -> kinv p a (U / 2) V (2 * S) Rr (k + 1).
Proof using All.
  intros E. apply even_half in E. pose proof ki_small as [B1 B2]. pose proof ki_pow as PW. destruct I. set (U' := U / 2) in *. clearbody U'. subst U.
  constructor.
  - lia.
  - lia.
  - lia.
  - lia.
  - rewrite ki_eq0 at 1. ring.
  - apply (mod_lin p _ _ 1) with (2 := ki_r0); [lia|]. rewrite PW. ring.
  - apply (mod_lin p _ _ 2) with (2 := ki_s0); [lia|]. rewrite PW. ring.
  - intros d D1 D2. apply ki_g0; [apply Z.divide_mul_r; exact D1|exact D2].
  - lia.
Qed.
Lemma step_v : Z.even V = true -> kinv p a U (V / 2) S (2 * Rr) (k + 1).
Proof using All.
  intros E. apply even_half in E. pose proof ki_small as [B1 B2]. pose proof ki_pow as PW. destruct I. set (V' := V / 2) in *. clearbody V'. subst V.
  constructor.
  - lia.
  - lia.
  - lia.
  - lia.
  - rewrite ki_eq0 at 1. ring.
  - apply (mod_lin p _ _ 2) with (2 := ki_r0); [lia|]. rewrite PW. ring.
  - apply (mod_lin p _ _ 1) with (2 := ki_s0); [lia|]. rewrite PW. ring.
  - intros d D1 D2. apply ki_g0; [exact D1|apply Z.divide_mul_r; exact D2].
  - lia.
Qed.
Lemma step_uv : Z.even U = false -> Z.even V = false -> V < U -> kinv p a ((U - V) / 2) V (2 * S) (Rr + S) (k + 1).
Proof using All.
  intros EU EV L. pose proof (even_half _ (odd_sub_even _ _ EU EV)) as E. pose proof ki_small as [B1 B2]. pose proof ki_pow as PW. destruct I.
  set (W := (U - V) / 2) in *. clearbody W. assert (U = V + 2 * W) by lia. subst U. clear E.
  constructor.
  - lia.
  - lia.
  - lia.
  - lia.
  - rewrite ki_eq0 at 1. ring.
  - apply (mod_sum p _ _ _ ltac:(lia) ki_r0 ki_s0). rewrite PW. ring.
  - apply (mod_lin p _ _ 2) with (2 := ki_s0); [lia|]. rewrite PW. ring.
  - intros d D1 D2. apply ki_g0; [|exact D2]. apply Z.divide_add_r; [exact D2|apply Z.divide_mul_r; exact D1].
  - lia.
Qed.
Lemma step_vu : Z.even U = false -> Z.even V = false -> U <= V -> kinv p a U ((V - U) / 2) (S + Rr) (2 * Rr) (k + 1).
Proof using All.
  intros EU EV L. pose proof (even_half _ (odd_sub_even _ _ EV EU)) as E. pose proof ki_small as [B1 B2]. pose proof ki_pow as PW. destruct I.
  set (W := (V - U) / 2) in *. clearbody W. assert (V = U + 2 * W) by lia. subst V. clear E.
  constructor.
  - lia.
  - lia.
  - lia.
  - lia.
  - rewrite ki_eq0 at 1. ring.
  - apply (mod_lin p _ _ 2) with (2 := ki_r0); [lia|]. rewrite PW. ring.
  - apply (mod_sum p _ _ _ ltac:(lia) ki_r0 ki_s0). rewrite PW. ring.
  - intros d D1 D2. apply ki_g0; [exact D1|]. apply Z.divide_add_r; [exact D1|apply Z.divide_mul_r; exact D2].
  - lia.
Qed.
End KStep.

Section Inv.
Variable F : fbuild.
Hypothesis HF : exact_but_square F.
Lemma div2_6 x : fe6 x -> fe6 (fe_div2 x) /\ bval (fe_div2 x) = bval x / 2.
Proof. intros [L W]. destruct (div2_spec x W) as (W' & L' & V'). split; [split; [congruence|exact W']|exact V']. Qed.
Lemma mul2_6 x : fe6 x -> 2 * bval x < bls_R -> exists y, fe_mul2 x 0 = (y, 0) /\ fe6 y /\ bval y = 2 * bval x.
Proof.
  intros [L W] B. destruct (fe_mul2 x 0) as [y k] eqn:E. destruct (mul2_spec x W 0 ltac:(lia) y k E) as (W' & L' & K & V).
  rewrite L, R_pow in V. assert (F6 : fe6 y) by (split; [congruence|exact W']).
  pose proof (fe6_val y F6). assert (k = 0).
  { assert (0 < bls_R) by lia. clear - V B K H H0. assert (k = 0 \/ k = 1) as [->| ->] by lia; lia. }
  subst k. exists y. split; [reflexivity|]. split; [exact F6|]. lia.
Qed.
Lemma inv_loop_ok a : forall n m u v s r k, (m < n)%nat ->
  fe6 u -> fe6 v -> fe6 s -> fe6 r -> kinv bls_p a (bval u) (bval v) (bval s) (bval r) k ->
  bval u * bval v < 2 ^ Z.of_nat m ->
  exists r' k', inv_loop F n u v s r 0 k = Some (r', 0, k') /\ fe6 r' /\ 0 <= bval r' < 2 * bls_p /\
    (a * bval r' + 2 ^ k') mod bls_p = 0 /\ k <= k' <= k + Z.of_nat m /\ bval u + bval v <= 2 ^ (k' - k).
Proof using HF.
  pose proof p_2R as PR. pose proof p_pos as P1.
  induction n as [|n IH]; intros m u v s r k Hm Fu Fv Fs Fr I B; [lia|].
  cbn [inv_loop]. rewrite (fb_iszero_spec v Fv). destruct (Z.eqb_spec (bval v) 0) as [V0|V0].
  - exists r, k. split; [reflexivity|]. split; [exact Fr|]. destruct I. split; [exact ki_R0|].
    assert (U1 : bval u = 1).
    { apply Z.divide_1_r_nonneg; [lia|]. apply ki_g0; [apply Z.divide_refl|rewrite V0; apply Z.divide_0_r]. }
    rewrite U1, Z.mul_1_l in ki_r0. split; [exact ki_r0|]. split; [lia|]. rewrite U1, V0, Z.sub_diag. cbn. lia.
  - assert (V1 : 1 <= bval v) by (destruct I; lia).
    destruct m as [|m]; [exfalso; destruct I; cbn in B; clear - B V1 ki_U0; nia|].
    assert (PM : 2 ^ Z.of_nat (S m) = 2 * 2 ^ Z.of_nat m) by (rewrite Nat2Z.inj_succ, Z.pow_succ_r by lia; reflexivity).
    rewrite PM in B.
    assert (next : forall u' v' s' r', fe6 u' -> fe6 v' -> fe6 s' -> fe6 r' ->
      kinv bls_p a (bval u') (bval v') (bval s') (bval r') (k + 1) ->
      2 * (bval u' * bval v') <= bval u * bval v -> bval u + bval v <= 2 * (bval u' + bval v') ->
      exists r'' k', inv_loop F n u' v' s' r' 0 (k + 1) = Some (r'', 0, k') /\ fe6 r'' /\ 0 <= bval r'' < 2 * bls_p /\
        (a * bval r'' + 2 ^ k') mod bls_p = 0 /\ k <= k' <= k + Z.of_nat (S m) /\ bval u + bval v <= 2 ^ (k' - k)).
    { intros u' v' s' r' Fu' Fv' Fs' Fr' I' Bm Bs.
      destruct (IH m u' v' s' r' (k + 1) ltac:(lia) Fu' Fv' Fs' Fr' I' ltac:(lia)) as (r2 & k2 & E & F2 & R2' & M2 & K2 & S2).
      exists r2, k2. split; [exact E|]. split; [exact F2|]. split; [exact R2'|]. split; [exact M2|]. split; [lia|].
      replace (k2 - k) with (1 + (k2 - (k + 1))) by lia. rewrite Z.pow_add_r by lia. change (2 ^ 1) with 2. lia. }
    clear IH B PM. destruct (ki_small _ _ _ _ _ _ _ P1 I V1) as [B1 B2].
    pose proof (ki_R _ _ _ _ _ _ _ I) as KR. pose proof (ki_S _ _ _ _ _ _ _ I) as KS. pose proof (ki_U _ _ _ _ _ _ _ I) as KU.
    destruct (mul2_6 s Fs ltac:(lia)) as (s2 & Es2 & Fs2 & Vs2).
    destruct (mul2_6 r Fr ltac:(lia)) as (r2 & Er2 & Fr2 & Vr2).
    rewrite (IsEven_spec u Fu), (IsEven_spec v Fv), (Cmp_spec u v Fu Fv), Es2, Er2. cbn [fst]. rewrite Z.add_0_r.
    destruct (Z.even (bval u)) eqn:Eu.
    { destruct (div2_6 u Fu) as [Fh Vh]. apply next; try assumption.
      - rewrite Vh, Vs2. apply step_u; assumption.
      - rewrite Vh. pose proof (even_half _ Eu) as H. clear - H V1. rewrite H at 2. lia.
      - rewrite Vh. pose proof (even_half _ Eu) as H. clear - H V1. lia. }
    destruct (Z.even (bval v)) eqn:Ev.
    { destruct (div2_6 v Fv) as [Fh Vh]. apply next; try assumption.
      - rewrite Vh, Vr2. apply step_v; assumption.
      - rewrite Vh. pose proof (even_half _ Ev) as H. clear - H KU. rewrite H at 2. lia.
      - rewrite Vh. pose proof (even_half _ Ev) as H. clear - H KU. lia. }
    destruct (Z.compare_spec (bval u) (bval v)) as [C|C|C]; cbn [Z.eqb Pos.eqb].
    1,2: destruct (ex_lsub F HF v u Fv Fu ltac:(lia)) as [Fd Vd]; destruct (div2_6 _ Fd) as [Fh Vh]; rewrite Vd in Vh;
      destruct (ex_ladd F HF s r Fs Fr ltac:(lia)) as [Fa Va];
      pose proof (even_half _ (odd_sub_even _ _ Ev Eu)) as H;
      apply next; try assumption;
      [rewrite Vh, Va, Vr2; apply step_vu; try assumption; lia|rewrite Vh; clear - H KU V1; nia|rewrite Vh; clear - H; lia].
    destruct (ex_lsub F HF u v Fu Fv ltac:(lia)) as [Fd Vd]; destruct (div2_6 _ Fd) as [Fh Vh]; rewrite Vd in Vh;
      destruct (ex_ladd F HF r s Fr Fs ltac:(lia)) as [Fa Va];
      pose proof (even_half _ (odd_sub_even _ _ Eu Ev)) as H;
      apply next; try assumption;
      [rewrite Vh, Va, Vs2; apply step_uv; try assumption; lia|rewrite Vh; clear - H KU V1; nia|rewrite Vh; clear - H; lia].
Qed.
Lemma double_iter j : forall x, fe6 x -> bval x < bls_p -> fe6 (Nat.iter j (f_double F) x) /\
  0 <= bval (Nat.iter j (f_double F) x) < bls_p /\ bval (Nat.iter j (f_double F) x) mod bls_p = (2 ^ Z.of_nat j * bval x) mod bls_p.
Proof using HF.
  pose proof p_pos as P1.
  induction j as [|j IH]; intros x Fx Bx; cbn [Nat.iter nat_rect].
  - split; [exact Fx|]. split; [split; [apply fe6_val, Fx|exact Bx]|]. cbn [Z.of_nat]. rewrite Z.pow_0_r, Z.mul_1_l. reflexivity.
  - change (nat_rect (fun _ => fe) x (fun _ => f_double F) j) with (Nat.iter j (f_double F) x).
    destruct (IH x Fx Bx) as (F1 & B1 & V1). set (y := Nat.iter j (f_double F) x) in *. clearbody y.
    pose proof (ex_double F HF y _ (fe_of_ex y F1 (proj2 B1))) as D. destruct (fe_of_in _ _ D) as [F2 B2].
    split; [exact F2|]. split; [split; [apply fe6_val, F2|exact B2]|].
    destruct D as (_ & _ & _ & E). rewrite E, Z.mod_mod, Z.mul_mod_idemp_l by lia.
    rewrite <- Z.mul_assoc, (Z.mul_comm _ bls_R), Z.mul_assoc, Z.mul_mod_idemp_r by lia.
    replace (2 * bls_R * (bval y * bls_Ri)) with (2 * bval y * (bls_R * bls_Ri)) by ring.
    rewrite <- (Z.mul_mod_idemp_r _ (bls_R * bls_Ri)), R_Ri, Z.mul_1_r by lia.
    rewrite Nat2Z.inj_succ, Z.pow_succ_r, <- Z.mul_assoc by lia.
    rewrite <- (Z.mul_mod_idemp_r 2 (_ * bval x)), <- V1, Z.mul_mod_idemp_r by lia. reflexivity.
Qed.
(** The inverse in Montgomery form: the product of the words is 2^768 *)
Theorem inverse_raw a : fe6 a -> 0 < bval a < bls_p ->
  fe6 (inverse F a) /\ 0 <= bval (inverse F a) < bls_p /\ (bval a * bval (inverse F a)) mod bls_p = (bls_R * bls_R) mod bls_p.
Proof using HF.
  intros Fa Ba. pose proof p_pos as P1.
  assert (G : forall d, (d | bls_p) -> (d | bval a) -> (d | 1)).
  { assert (H : rel_prime (bval a) bls_p) by (apply rel_prime_le_prime; [exact bls_p_prime|lia]). destruct H. auto. } pose proof p_size as PS. pose proof p_2R as PR.
  unfold inverse. rewrite (fb_iszero_spec a Fa). rewrite (proj2 (Z.eqb_neq (bval a) 0)) by lia.
  assert (I : kinv bls_p (bval a) (bval bls_q) (bval a) (bval [1; 0; 0; 0; 0; 0]) (bval fb_zero) 0).
  { rewrite q_val. change (bval [1; 0; 0; 0; 0; 0]) with 1. change (bval fb_zero) with 0. constructor; try lia.
    - rewrite Z.pow_0_r. replace (bval a * 0 + bls_p * 1) with (0 + 1 * bls_p) by ring. rewrite Z.mod_add by lia. apply Z.mod_0_l. lia.
    - rewrite Z.pow_0_r. replace (bval a * 1 - bval a * 1) with 0 by ring. apply Z.mod_0_l. lia.
    - exact G. }
  destruct (inv_loop_ok (bval a) 768 762 bls_q a [1; 0; 0; 0; 0; 0] fb_zero 0) as (r & k & E & Fr & Br & Mr & Kr & Sr);
    [lia|exact q_fe6|exact Fa|exact one6|exact zero6|exact I| |].
  { rewrite q_val. change (Z.of_nat 762) with (381 + 381). rewrite Z.pow_add_r by lia. clear - PS Ba. nia. }
  fold fb_zero. rewrite E. rewrite Z.sub_0_r in Sr. rewrite q_val in Sr.
  assert (K1 : 380 < k).
  { apply (Z.pow_lt_mono_r_iff 2); [lia|lia|]. lia. }
  rewrite (proj2 (Z.ltb_ge k 381)) by lia. change (381 + 384) with 765. rewrite (proj2 (Z.ltb_ge 765 k)) by (change (Z.of_nat 762) with 762 in Kr; lia).
  cbn [orb]. change (0 <? 0) with false. rewrite orb_false_r, (Cmp_spec r bls_q Fr q_fe6), q_val.
  set (r0 := if negb (_ =? -1) then f_lsub F r bls_q else r).
  assert (H0 : fe6 r0 /\ 0 <= bval r0 < bls_p /\ bval r0 mod bls_p = bval r mod bls_p).
  { unfold r0. destruct (Z.compare_spec (bval r) bls_p) as [C|C|C]; cbn [Z.eqb Pos.eqb negb].
    1,3: destruct (ex_lsub F HF r bls_q Fr q_fe6 ltac:(rewrite q_val; lia)) as [Fs Vs]; rewrite q_val in Vs;
      split; [exact Fs|]; split; [lia|]; rewrite Vs; replace (bval r) with (bval r - bls_p + 1 * bls_p) at 2 by ring;
      rewrite Z.mod_add by lia; reflexivity.
    split; [exact Fr|]. split; [lia|reflexivity]. }
  clearbody r0. destruct H0 as (F0 & B0 & M0).
  destruct (ex_lsub F HF bls_q r0 q_fe6 F0 ltac:(rewrite q_val; lia)) as [Fs Vs]. rewrite q_val in Vs.
  assert (Mr0 : (bval a * bval r0 + 2 ^ k) mod bls_p = 0).
  { rewrite <- Mr. rewrite <- Z.add_mod_idemp_l, <- (Z.mul_mod_idemp_r _ (bval r0)), M0, Z.mul_mod_idemp_r, Z.add_mod_idemp_l by lia. reflexivity. }
  assert (N0 : 0 < bval r0).
  { destruct (Z.eq_dec (bval r0) 0) as [Z0|]; [exfalso|lia]. rewrite Z0, Z.mul_0_r, Z.add_0_l in Mr0.
    apply Zmod_divide in Mr0; [|lia]. 
    assert (RP : rel_prime bls_p (2 ^ k)).
    { apply rel_prime_Zpower_r; [lia|]. apply rel_prime_sym, rel_prime_le_prime; [exact bls_p_prime|]. clear - PS. assert (2 < 2 ^ 380) by reflexivity. lia. }
    destruct RP as [_ _ RP]. specialize (RP bls_p (Z.divide_refl _) Mr0). apply Z.divide_1_r_nonneg in RP; lia. }
  destruct (double_iter (Z.to_nat (768 - k)) (f_lsub F bls_q r0) Fs ltac:(lia)) as (Fd & Bd & Vd).
  split; [exact Fd|]. split; [exact Bd|].
  rewrite <- Z.mul_mod_idemp_r, Vd, Z.mul_mod_idemp_r, Vs, Z2Nat.id by (change (Z.of_nat 762) with 762 in Kr; lia).
  rewrite R2. replace (2 ^ 768) with (2 ^ (768 - k) * 2 ^ k) by (rewrite <- Z.pow_add_r by (change (Z.of_nat 762) with 762 in Kr; lia); f_equal; lia).
  replace (bval a * (2 ^ (768 - k) * (bls_p - bval r0))) with
    (2 ^ (768 - k) * 2 ^ k + (- (2 ^ (768 - k))) * (bval a * bval r0 + 2 ^ k) + (2 ^ (768 - k) * bval a) * bls_p) by ring.
  rewrite Z.mod_add, <- Z.add_mod_idemp_r, <- (Z.mul_mod_idemp_r (- _)), Mr0, Z.mul_0_r, Z.mod_0_l, Z.add_0_r by lia. reflexivity.
Qed.
End Inv.
