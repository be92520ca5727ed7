(** * The portable BLS12-381 base field arithmetic computes modulo p. *)
From Coq Require Import ZArith List Lia Bool.
From Verif Require Import ModelBlsF SpecBls.
Import ListNotations.
Local Open Scope Z_scope.

Definition word (x : Z) : Prop := 0 <= x < B64.
Definition words (l : list Z) : Prop := Forall word l.

Lemma B64_pos : 0 < B64. Proof. unfold B64; lia. Qed.
Lemma B64_ge : 16 <= B64. Proof. unfold B64; lia. Qed.

Lemma add64_spec : forall x y c s k, add64 x y c = (s, k) ->
  word x -> word y -> 0 <= c -> x + y + c < 2 * B64 ->
  word s /\ 0 <= k <= 1 /\ s + B64 * k = x + y + c.
Proof.
  intros x y c s k E Hx Hy Hc Hb. unfold add64 in E.
  assert (S : (x + y + c) mod B64 = s) by congruence.
  assert (K : (x + y + c) / B64 = k) by congruence. clear E.
  pose proof (Z.div_mod (x + y + c) B64) as D. pose proof B64_pos as P.
  pose proof (Z.mod_pos_bound (x + y + c) B64 P) as M.
  rewrite S, K in *. specialize (D ltac:(lia)). unfold word in *.
  assert (0 <= k) by (subst k; apply Z.div_pos; lia).
  assert (k < 2) by (subst k; apply Z.div_lt_upper_bound; lia).
  lia.
Qed.

(** without the bound: the carry is still what is missing *)
Lemma add64_any : forall x y c s k, add64 x y c = (s, k) ->
  0 <= x -> 0 <= y -> 0 <= c ->
  word s /\ 0 <= k /\ s + B64 * k = x + y + c.
Proof.
  intros x y c s k E Hx Hy Hc. unfold add64 in E.
  assert (S : (x + y + c) mod B64 = s) by congruence.
  assert (K : (x + y + c) / B64 = k) by congruence. clear E.
  pose proof (Z.div_mod (x + y + c) B64) as D. pose proof B64_pos as P.
  pose proof (Z.mod_pos_bound (x + y + c) B64 P) as M.
  rewrite S, K in *. specialize (D ltac:(lia)). unfold word in *.
  assert (0 <= k) by (subst k; apply Z.div_pos; lia).
  lia.
Qed.

Lemma sub64_spec : forall x y b s k, sub64 x y b = (s, k) ->
  word x -> word y -> 0 <= b <= 1 ->
  word s /\ 0 <= k <= 1 /\ s - B64 * k = x - y - b.
Proof.
  intros x y b s k E Hx Hy Hb. unfold sub64 in E.
  pose proof B64_pos as P. unfold word in *.
  assert (S : (x - y - b) mod B64 = s) by congruence.
  destruct (Z.ltb_spec (x - y - b) 0) as [L|L]; injection E as _ K; subst k.
  - rewrite <- S.
    rewrite <- (Z.mod_unique (x - y - b) B64 (-1) (x - y - b + B64)); lia.
  - rewrite <- S, Z.mod_small by lia. lia.
Qed.

Lemma mul64_spec : forall x y h l, mul64 x y = (h, l) -> word x -> word y ->
  word l /\ 0 <= h <= B64 - 2 /\ l + B64 * h = x * y.
Proof.
  intros x y h l E Hx Hy. unfold mul64 in E. injection E as E1 E2.
  pose proof B64_pos as P. unfold word in *.
  pose proof (Z.div_mod (x * y) B64 ltac:(lia)) as D.
  pose proof (Z.mod_pos_bound (x * y) B64 P) as M.
  rewrite E1, E2 in D. rewrite E2 in M.
  assert (0 <= h) by (subst h; apply Z.div_pos; nia).
  assert (h < B64 - 1).
  { subst h. apply Z.div_lt_upper_bound; [exact P|].
    assert (x * y <= (B64 - 1) * (B64 - 1)) by (apply Z.mul_le_mono_nonneg; lia).
    pose proof B64_ge. lia. }
  lia.
Qed.

(** a carry in {0, 1} that must be 0 *)
Ltac nocarry k :=
  let N := fresh in let M := fresh in
  assert (N : k = 0) by (assert (M : k = 0 \/ k = 1) by lia; destruct M; subst k; lia);
  subst k.

(** ** Chains *)

Lemma bval_app : forall a b, bval (a ++ b) = bval a + B64 ^ Z.of_nat (length a) * bval b.
Proof.
  induction a as [|x a IH]; intro b.
  - cbn [app bval length]. rewrite Z.pow_0_r. lia.
  - cbn [app bval length]. rewrite IH, Nat2Z.inj_succ, Z.pow_succ_r by lia. ring.
Qed.

Lemma Bpow_pos : forall n, 0 < B64 ^ Z.of_nat n.
Proof. intro n. apply Z.pow_pos_nonneg; [exact B64_pos|lia]. Qed.

Lemma bval_range : forall l, words l -> 0 <= bval l < B64 ^ Z.of_nat (length l).
Proof.
  induction 1 as [|x l Hx Hl IH].
  - cbn. lia.
  - cbn [bval length]. rewrite Nat2Z.inj_succ, Z.pow_succ_r by lia.
    unfold word in Hx. pose proof B64_pos. nia.
Qed.

Lemma addc_spec : forall xs ys c r k, addc xs ys c = (r, k) ->
  length xs = length ys -> words xs -> words ys -> 0 <= c <= 1 ->
  words r /\ length r = length xs /\ 0 <= k <= 1 /\
  bval r + B64 ^ Z.of_nat (length xs) * k = bval xs + bval ys + c.
Proof.
  induction xs as [|x xs IH]; intros [|y ys] c r k E L Hx Hy Hc; try discriminate L.
  - cbn [addc] in E. injection E as <- <-. cbn [bval length Z.of_nat].
    rewrite Z.pow_0_r. repeat split; try (constructor); try lia.
  - cbn [addc] in E. inversion Hx; subst. inversion Hy; subst.
    destruct (add64 x y c) as [s c1] eqn:E1.
    destruct (addc xs ys c1) as [r' c2] eqn:E2. injection E as <- <-.
    destruct (add64_spec _ _ _ _ _ E1) as (W & K & V); auto; try lia.
    { unfold word in *. lia. }
    destruct (IH _ _ _ _ E2) as (W' & L' & K' & V'); auto.
    split; [constructor; assumption|]. split; [cbn; congruence|]. split; [exact K'|].
    cbn [bval length]. rewrite Nat2Z.inj_succ, Z.pow_succ_r by lia. nia.
Qed.

Lemma subb_spec : forall xs ys b r k, subb xs ys b = (r, k) ->
  length xs = length ys -> words xs -> words ys -> 0 <= b <= 1 ->
  words r /\ length r = length xs /\ 0 <= k <= 1 /\
  bval r - B64 ^ Z.of_nat (length xs) * k = bval xs - bval ys - b.
Proof.
  induction xs as [|x xs IH]; intros [|y ys] b r k E L Hx Hy Hc; try discriminate L.
  - cbn [subb] in E. injection E as <- <-. cbn [bval length Z.of_nat].
    rewrite Z.pow_0_r. repeat split; try (constructor); try lia.
  - cbn [subb] in E. inversion Hx; subst. inversion Hy; subst.
    destruct (sub64 x y b) as [s c1] eqn:E1.
    destruct (subb xs ys c1) as [r' c2] eqn:E2. injection E as <- <-.
    destruct (sub64_spec _ _ _ _ _ E1) as (W & K & V); auto.
    destruct (IH _ _ _ _ E2) as (W' & L' & K' & V'); auto.
    split; [constructor; assumption|]. split; [cbn; congruence|]. split; [exact K'|].
    cbn [bval length]. rewrite Nat2Z.inj_succ, Z.pow_succ_r by lia. nia.
Qed.

Lemma lexlt_spec : forall zs qs, length zs = length qs -> words zs -> words qs ->
  lexlt zs qs = (bval (rev zs) <? bval (rev qs)).
Proof.
  induction zs as [|z zs IH]; intros [|q qs] L Hz Hq; try discriminate L.
  - reflexivity.
  - injection L as L. inversion Hz; subst. inversion Hq; subst.
    cbn [lexlt rev]. rewrite IH by assumption.
    rewrite !bval_app. cbn [bval]. rewrite !rev_length, <- L.
    assert (R1 : 0 <= bval (rev zs) < B64 ^ Z.of_nat (length zs)).
    { rewrite <- (rev_length zs). apply bval_range.
      apply Forall_rev; assumption. }
    assert (R2 : 0 <= bval (rev qs) < B64 ^ Z.of_nat (length zs)).
    { rewrite L, <- (rev_length qs). apply bval_range.
      apply Forall_rev; assumption. }
    set (X := B64 ^ Z.of_nat (length zs)) in *. clearbody X.
    destruct (Z.ltb_spec z q); destruct (Z.eqb_spec z q);
      destruct (Z.ltb_spec (bval (rev zs)) (bval (rev qs)));
      cbn [orb andb]; symmetry; try (apply Z.ltb_lt; nia); apply Z.ltb_ge; nia.
Qed.

(** ** Field elements *)

Definition fe6 (x : list Z) : Prop := length x = 6%nat /\ words x.

Lemma q_fe6 : fe6 bls_q.
Proof. split; [reflexivity|]. repeat constructor; unfold word, B64; lia. Qed.
Lemma q_val : bval bls_q = bls_p.
Proof. reflexivity. Qed.
Lemma R_pow : B64 ^ Z.of_nat 6 = bls_R.
Proof. reflexivity. Qed.
Lemma p_R : 9 * bls_p < bls_R /\ 1 < bls_p.
Proof. split; reflexivity. Qed.

Lemma fe6_val : forall x, fe6 x -> 0 <= bval x < bls_R.
Proof. intros x [L W]. rewrite <- R_pow, <- L. apply bval_range, W. Qed.

Lemma fb_reduce_spec : forall z, fe6 z -> bval z < 2 * bls_p ->
  fe6 (fb_reduce z) /\ bval (fb_reduce z) = bval z mod bls_p.
Proof.
  intros z Hz B. pose proof (fe6_val z Hz) as V. destruct Hz as [L W].
  unfold fb_reduce. pose proof q_fe6 as [Lq Wq].
  rewrite lexlt_spec.
  2: rewrite !rev_length, L, Lq; reflexivity.
  2, 3: apply Forall_rev; assumption.
  rewrite !rev_involutive, q_val.
  pose proof p_R as [PR P1].
  destruct (Z.ltb_spec (bval z) bls_p) as [H|H]; cbn [negb].
  - split; [split; assumption|]. rewrite Z.mod_small; [reflexivity|]. split; [apply V|exact H].
  - destruct (subb z bls_q 0) as [r k] eqn:E. cbn [fst].
    destruct (subb_spec _ _ _ _ _ E) as (Wr & Lr & K & Vr);
      [rewrite L, Lq; reflexivity|assumption|assumption|lia|].
    rewrite L, R_pow, q_val in Vr.
    assert (F : fe6 r) by (split; [congruence|assumption]).
    pose proof (fe6_val r F) as VR.
    split; [exact F|].
    assert (k = 0) by (assert (K2 : k = 0 \/ k = 1) by lia; destruct K2 as [K2|K2]; subst k; clear - Vr K H VR B PR P1; lia). subst k.
    rewrite <- (Z.mod_unique (bval z) bls_p 1 (bval r)); [reflexivity| |]; clear - Vr H B; lia.
Qed.

Section Ops.
Variables x y : list Z.
Hypothesis Hx : fe6 x.
Hypothesis Hy : fe6 y.
Hypothesis Bx : bval x < bls_p.
Hypothesis By : bval y < bls_p.

Lemma ladd_raw : forall u v, fe6 u -> fe6 v -> bval u + bval v < bls_R ->
  fe6 (fst (addc u v 0)) /\ bval (fst (addc u v 0)) = bval u + bval v.
Proof.
  clear. intros u v Hu Hv H. destruct (addc u v 0) as [r k] eqn:E. cbn [fst].
  destruct (addc_spec _ _ _ _ _ E) as (Wr & Lr & K & Vr);
    [rewrite (proj1 Hu), (proj1 Hv); reflexivity|apply Hu|apply Hv|lia|].
  rewrite (proj1 Hu), R_pow in Vr.
  assert (F : fe6 r) by (split; [rewrite Lr; apply Hu|assumption]).
  pose proof (fe6_val r F) as VR. split; [exact F|].
  assert (K2 : k = 0 \/ k = 1) by lia. destruct K2; subst k; lia.
Qed.

Lemma fb_add_spec : fe6 (fb_add x y) /\ bval (fb_add x y) = (bval x + bval y) mod bls_p.
Proof.
  pose proof p_R as [PR P1].
  destruct (ladd_raw x y Hx Hy ltac:(clear - PR P1 Bx By; lia)) as [F V].
  unfold fb_add. destruct (fb_reduce_spec _ F) as [F2 V2].
  { rewrite V. clear - Bx By. lia. }
  split; [exact F2|]. rewrite V2, V. reflexivity.
Qed.

Lemma fb_sub_spec : fe6 (fb_sub x y) /\ bval (fb_sub x y) = (bval x - bval y) mod bls_p.
Proof.
  pose proof p_R as [PR P1]. unfold fb_sub.
  destruct (subb x y 0) as [r k] eqn:E.
  destruct (subb_spec _ _ _ _ _ E) as (Wr & Lr & K & Vr);
    [rewrite (proj1 Hx), (proj1 Hy); reflexivity|apply Hx|apply Hy|lia|].
  rewrite (proj1 Hx), R_pow in Vr.
  assert (F : fe6 r) by (split; [rewrite Lr; apply Hx|assumption]).
  pose proof (fe6_val x Hx) as VX. pose proof (fe6_val y Hy) as VY. pose proof (fe6_val r F) as VR.
  destruct (Z.eqb_spec k 0) as [->|N]; cbn [negb].
  - split; [exact F|]. rewrite Z.mod_small by (clear - Vr VX VY VR Bx By; lia).
    clear - Vr. lia.
  - assert (k = 1) by lia. subst k.
    destruct (addc r bls_q 0) as [s c] eqn:E2. cbn [fst].
    destruct (addc_spec _ _ _ _ _ E2) as (Ws & Ls & K2 & Vs);
      [rewrite (proj1 F); reflexivity|apply F|apply q_fe6|lia|].
    rewrite (proj1 F), R_pow, q_val in Vs.
    assert (F2 : fe6 s) by (split; [rewrite Ls; apply F|assumption]).
    pose proof (fe6_val s F2) as VS.
    split; [exact F2|].
    assert (c = 1) by (assert (K3 : c = 0 \/ c = 1) by lia; destruct K3 as [K3|K3]; subst c; clear - Vs Vr VS VX VY VR Bx By PR P1 K2; lia). subst c.
    rewrite <- (Z.mod_unique (bval x - bval y) bls_p (-1) (bval s)); [reflexivity| |];
      clear - Vs Vr VS VX VY VR Bx By PR P1; lia.
Qed.

Lemma fb_iszero_spec : fb_iszero x = (bval x =? 0).
Proof.
  clear - Hx. destruct Hx as [_ W]. unfold fb_iszero.
  assert (G : forall l, words l -> 0 <= fold_right Z.lor 0 l /\ (fold_right Z.lor 0 l = 0 <-> bval l = 0)).
  { clear. induction 1 as [|a l Ha Hl [IH1 IH2]].
    - cbn. lia.
    - cbn [fold_right bval]. destruct Ha as [Ha1 Ha2].
      split; [apply Z.lor_nonneg; auto|]. rewrite Z.lor_eq_0_iff, IH2.
      pose proof (bval_range l Hl). pose proof B64_pos. nia. }
  destruct (G x W) as [_ I].
  destruct (Z.eqb_spec (fold_right Z.lor 0 x) 0); destruct (Z.eqb_spec (bval x) 0); tauto.
Qed.

Lemma fb_neg_spec : fe6 (fb_neg x) /\ bval (fb_neg x) = (- bval x) mod bls_p.
Proof.
  pose proof p_R as [PR P1]. unfold fb_neg. rewrite fb_iszero_spec.
  destruct (Z.eqb_spec (bval x) 0) as [->|N].
  - split; [|reflexivity]. split; [reflexivity|].
    repeat constructor; unfold word, B64; lia.
  - destruct (subb bls_q x 0) as [r k] eqn:E. cbn [fst].
    destruct (subb_spec _ _ _ _ _ E) as (Wr & Lr & K & Vr);
      [rewrite (proj1 Hx); reflexivity|apply q_fe6|apply Hx|lia|].
    rewrite (proj1 q_fe6), R_pow, q_val in Vr.
    assert (F : fe6 r) by (split; [exact Lr|assumption]).
    pose proof (fe6_val x Hx) as VX. pose proof (fe6_val r F) as VR.
    split; [exact F|].
    assert (k = 0) by (assert (K2 : k = 0 \/ k = 1) by lia; destruct K2 as [K2|K2]; subst k; clear - Vr K VX VR Bx PR P1; lia). subst k.
    rewrite <- (Z.mod_unique (- bval x) bls_p (-1) (bval r)); [reflexivity| |];
      clear - Vr VX VR Bx N; lia.
Qed.
End Ops.

Lemma fb_double_spec : forall x, fe6 x -> bval x < bls_p ->
  fe6 (fb_double x) /\ bval (fb_double x) = (2 * bval x) mod bls_p.
Proof.
  intros x Hx Bx. replace (2 * bval x) with (bval x + bval x) by lia.
  exact (fb_add_spec x x Hx Hx Bx Bx).
Qed.

(** ** Multiplication *)

Lemma madd1_spec : forall a b c h l, madd1 a b c = (h, l) -> word a -> word b -> word c ->
  word h /\ word l /\ l + B64 * h = a * b + c.
Proof.
  intros a b c h l E Ha Hb Hc. unfold madd1 in E.
  destruct (mul64 a b) as [h1 l1] eqn:E1. destruct (mul64_spec _ _ _ _ E1 Ha Hb) as (W1 & W2 & V1).
  destruct (add64 l1 c 0) as [l2 k2] eqn:E2.
  destruct (add64_spec _ _ _ _ _ E2) as (W3 & K3 & V3); auto; try lia.
  { unfold word in *; lia. }
  destruct (add64 h1 0 k2) as [h3 k3] eqn:E3. cbn [fst] in E. injection E as <- <-.
  destruct (add64_spec _ _ _ _ _ E3) as (W4 & K4 & V4); unfold word in *; try lia.
  nocarry k3. assert (h3 = h1 + k2) by lia. subst h3. lia.
Qed.
Lemma madd0_spec : forall a b c, word a -> word b -> word c -> (a * b + c) mod B64 = 0 ->
  word (madd0 a b c) /\ B64 * madd0 a b c = a * b + c.
Proof.
  intros a b c Ha Hb Hc M. unfold madd0.
  destruct (mul64 a b) as [h1 l1] eqn:E1. destruct (mul64_spec _ _ _ _ E1 Ha Hb) as (W1 & W2 & V1).
  destruct (add64 l1 c 0) as [l2 k2] eqn:E2.
  destruct (add64_spec _ _ _ _ _ E2) as (W3 & K3 & V3); auto; try lia.
  { unfold word in *; lia. }
  destruct (add64 h1 0 k2) as [h3 k3] eqn:E3. cbn [fst].
  destruct (add64_spec _ _ _ _ _ E3) as (W4 & K4 & V4); unfold word in *; try lia.
  nocarry k3.
  assert (l2 = 0).
  { replace (a * b + c) with (l2 + (h1 + k2) * B64) in M by lia.
    rewrite Z.mod_add, Z.mod_small in M by (unfold B64; lia || (unfold B64 in *; lia)). exact M. }
  subst l2. assert (h3 = h1 + k2) by lia. subst h3. lia.
Qed.
Lemma madd2_spec : forall a b c d h l, madd2 a b c d = (h, l) ->
  word a -> word b -> word c -> word d ->
  word h /\ word l /\ l + B64 * h = a * b + c + d.
Proof.
  intros a b c d h l E Ha Hb Hc Hd. unfold madd2 in E.
  destruct (mul64 a b) as [h1 l1] eqn:E1. destruct (mul64_spec _ _ _ _ E1 Ha Hb) as (W1 & W2 & V1).
  destruct (add64 c d 0) as [s k] eqn:E2.
  destruct (add64_spec _ _ _ _ _ E2) as (W3 & K3 & V3); auto; try lia.
  { unfold word in *; lia. }
  destruct (add64 h1 0 k) as [h2 k2] eqn:E3. cbn [fst] in E.
  destruct (add64_spec _ _ _ _ _ E3) as (W4 & K4 & V4); unfold word in *; try lia.
  destruct (add64 l1 s 0) as [l2 k3] eqn:E4.
  destruct (add64_spec _ _ _ _ _ E4) as (W5 & K5 & V5); unfold word in *; try lia.
  destruct (add64 h2 0 k3) as [h3 k4] eqn:E5. cbn [fst] in E. injection E as <- <-.
  destruct (add64_spec _ _ _ _ _ E5) as (W6 & K6 & V6); unfold word in *; try lia.
  nocarry k2.
  assert (h1 + k + k3 < B64).
  { assert (a * b + c + d < B64 * B64) by nia.
    assert (B64 * (h1 + k + k3) <= a * b + c + d) by lia. nia. }
  nocarry k4. assert (h3 = h1 + k + k3) by lia. subst h3. lia.
Qed.
(** the top word of [madd3] may lose a carry; [d] is what is lost *)
Lemma madd3_spec : forall a b c e f h l, madd3 a b c e f = (h, l) ->
  word a -> word b -> word c -> word e -> word f ->
  word h /\ word l /\ exists d, 0 <= d /\ l + B64 * h + B64 * B64 * d = a * b + c + e + B64 * f.
Proof.
  intros a b c e f h l E Ha Hb Hc He Hf. unfold madd3 in E.
  destruct (mul64 a b) as [h1 l1] eqn:E1. destruct (mul64_spec _ _ _ _ E1 Ha Hb) as (W1 & W2 & V1).
  destruct (add64 c e 0) as [s k] eqn:E2.
  destruct (add64_spec _ _ _ _ _ E2) as (W3 & K3 & V3); auto; try lia.
  { unfold word in *; lia. }
  destruct (add64 h1 0 k) as [h2 k2] eqn:E3. cbn [fst] in E.
  destruct (add64_spec _ _ _ _ _ E3) as (W4 & K4 & V4); unfold word in *; try lia.
  destruct (add64 l1 s 0) as [l2 k3] eqn:E4.
  destruct (add64_spec _ _ _ _ _ E4) as (W5 & K5 & V5); unfold word in *; try lia.
  destruct (add64 h2 f k3) as [h3 k4] eqn:E5. cbn [fst] in E. injection E as <- <-.
  destruct (add64_any _ _ _ _ _ E5) as (W6 & K6 & V6); unfold word in *; try lia.
  split; [lia|]. split; [lia|]. exists (k2 + k4). split; [lia|]. nia.
Qed.

Lemma mrow_spec : forall v m ys qs ts c1 c2,
  ys <> [] -> length ys = length qs -> length ys = length ts ->
  word v -> word m -> words ys -> words qs -> words ts -> word c1 -> word c2 ->
  let r := mrow v m ys qs ts c1 c2 in
  words r /\ length r = S (length ys) /\
  exists d, 0 <= d /\ bval r + B64 ^ Z.of_nat (S (length ys)) * d =
            v * bval ys + m * bval qs + bval ts + c1 + c2.
Proof.
  intros v m. induction ys as [|y ys IH]; intros [|q qs] [|t ts] c1 c2 NE L1 L2 Hv Hm Hy Hq Ht H1 H2;
    try discriminate L1; try discriminate L2; [congruence|].
  injection L1 as L1. injection L2 as L2. inversion Hy; subst. inversion Hq; subst. inversion Ht; subst.
  destruct ys as [|y' ys].
  - destruct qs as [|? ?]; [|discriminate L1]. destruct ts as [|? ?]; [|discriminate L2].
    cbn [mrow]. destruct (madd2 v y c1 t) as [c1' c0] eqn:E1.
    destruct (madd2_spec _ _ _ _ _ _ E1) as (A1 & A2 & A3); auto.
    destruct (madd3 m q c0 c2 c1') as [h l] eqn:E2.
    destruct (madd3_spec _ _ _ _ _ _ _ E2) as (A4 & A5 & d & A6 & A7); auto.
    cbv zeta. split; [exact (Forall_cons _ A5 (Forall_cons _ A4 (Forall_nil _)))|]. split; [reflexivity|].
    exists d. split; [exact A6|]. cbn [bval length Z.of_nat].
    change (B64 ^ Z.of_nat 2) with (B64 * B64). clear - A3 A7. lia.
  - destruct qs as [|q' qs]; [discriminate L1|]. destruct ts as [|t' ts]; [discriminate L2|].
    cbv zeta.
    change (mrow v m (y :: y' :: ys) (q :: q' :: qs) (t :: t' :: ts) c1 c2) with
      (let '(c1, c0) := madd2 v y c1 t in
       let '(c2, l) := madd2 m q c2 c0 in
       l :: mrow v m (y' :: ys) (q' :: qs) (t' :: ts) c1 c2).
    destruct (madd2 v y c1 t) as [c1' c0] eqn:E1.
    destruct (madd2_spec _ _ _ _ _ _ E1) as (A1 & A2 & A3); auto.
    destruct (madd2 m q c2 c0) as [c2' l] eqn:E2.
    destruct (madd2_spec _ _ _ _ _ _ E2) as (A4 & A5 & A6); auto.
    destruct (IH (q' :: qs) (t' :: ts) c1' c2') as (W & LL & d & D1 & D2); auto; [discriminate|].
    split; [constructor; assumption|]. split; [cbn [length] in *; lia|].
    exists d. split; [exact D1|].
    cbn [bval length] in *. rewrite Nat2Z.inj_succ, Z.pow_succ_r by lia.
    clear - A3 A6 D2. set (X := B64 ^ Z.of_nat (S (S (length ys)))) in *. clearbody X. nia.
Qed.

Lemma inv_ok : (bls_inv * hd 0 bls_q + 1) mod B64 = 0.
Proof. reflexivity. Qed.

Lemma mround_spec : forall v ys ts, word v -> fe6 ys -> fe6 ts ->
  bval ts < bval ys + bls_p -> bval ys < bls_p ->
  let r := mround v ys ts in
  fe6 r /\ bval r < bval ys + bls_p /\
  exists m, B64 * bval r = v * bval ys + m * bls_p + bval ts.
Proof.
  intros v ys ts Hv [Ly Wy] [Lt Wt] Bt By.
  destruct ys as [|y ys]; [discriminate Ly|]. destruct ts as [|t ts]; [discriminate Lt|].
  pose proof q_fe6 as [Lq Wq]. pose proof q_val as Vq. unfold mround.
  destruct bls_q as [|q qs] eqn:Eq; [discriminate Lq|].
  pose proof inv_ok as IO. rewrite Eq in IO.
  cbn [hd tl] in *. inversion Wy; subst. inversion Wt; subst. inversion Wq; subst.
  destruct (madd1 v y t) as [c1 c0] eqn:E1.
  destruct (madd1_spec _ _ _ _ _ E1) as (A1 & A2 & A3); auto.
  set (m := (c0 * bls_inv) mod B64).
  assert (Wm : word m) by (apply Z.mod_pos_bound, B64_pos).
  assert (M0 : (m * q + c0) mod B64 = 0).
  { unfold m. rewrite Z.add_mod, Z.mul_mod_idemp_l, <- Z.add_mod by (unfold B64; lia).
    replace (c0 * bls_inv * q + c0) with (c0 * (bls_inv * q + 1)) by ring.
    rewrite Z.mul_mod, IO, Z.mul_0_r by (unfold B64; lia). reflexivity. }
  destruct (madd0_spec m q c0) as [B1 B2]; auto.
  destruct (mrow_spec v m ys qs ts c1 (madd0 m q c0)) as (C1 & C2 & d & C3 & C4); auto.
  { destruct ys; [discriminate Ly|discriminate]. }
  { cbn in *. lia. } { cbn in *. lia. }
  cbn [length] in Ly. assert (LL : S (length ys) = 6%nat) by lia.
  rewrite LL, R_pow in C4. rewrite LL in C2. cbv zeta.
  set (r := mrow v m ys qs ts c1 (madd0 m q c0)) in *.
  assert (F : fe6 r) by (split; assumption).
  assert (T : B64 * (bval r + bls_R * d) = v * bval (y :: ys) + m * bls_p + bval (t :: ts)).
  { rewrite <- Vq. rewrite C4. cbn [bval]. rewrite !Z.mul_add_distr_l, B2. clear - A3. lia. }
  pose proof p_R as [PR P1].
  assert (Vy : 0 <= bval (y :: ys)) by (apply bval_range; constructor; assumption).
  pose proof (fe6_val r F) as VR.
  assert (U : bval r + bls_R * d < bval (y :: ys) + bls_p).
  { assert (B64 * (bval r + bls_R * d) < B64 * (bval (y :: ys) + bls_p)); [|pose proof B64_pos; nia].
    rewrite T. clear - Hv Wm Bt Vy P1. unfold word in *.
    set (Y := bval (y :: ys)) in *. set (TT := bval (t :: ts)) in *.
    assert (v * Y <= (B64 - 1) * Y) by (apply Z.mul_le_mono_nonneg_r; lia).
    assert (m * bls_p <= (B64 - 1) * bls_p) by (apply Z.mul_le_mono_nonneg_r; lia). lia. }
  assert (d = 0) by (clear - U VR C3 By PR P1; nia). subst d.
  rewrite Z.mul_0_r, Z.add_0_r in *.
  split; [exact F|]. split; [exact U|]. exists m. exact T.
Qed.

(** round 0 is a round on t = 0 *)
Lemma madd1_2 : forall a b c, word a -> word b -> word c -> madd2 a b c 0 = madd1 a b c.
Proof.
  intros a b c Ha Hb Hc.
  destruct (madd2 a b c 0) as [h l] eqn:E2. destruct (madd1 a b c) as [h' l'] eqn:E1.
  assert (W0 : word 0) by (unfold word, B64; lia).
  destruct (madd2_spec _ _ _ _ _ _ E2) as (A & B & C); auto.
  destruct (madd1_spec _ _ _ _ _ E1) as (A' & B' & C'); auto.
  unfold word in *. assert (h = h') by nia. subst. f_equal. lia.
Qed.
Lemma madd1_mul : forall a b, word a -> word b -> madd1 a b 0 = mul64 a b.
Proof.
  intros a b Ha Hb.
  destruct (madd1 a b 0) as [h l] eqn:E2. destruct (mul64 a b) as [h' l'] eqn:E1.
  assert (W0 : word 0) by (unfold word, B64; lia).
  destruct (madd1_spec _ _ _ _ _ E2) as (A & B & C); auto.
  destruct (mul64_spec _ _ _ _ E1) as (A' & B' & C'); auto.
  unfold word in *. assert (h = h') by nia. subst. f_equal. lia.
Qed.
Lemma mrow0_eq : forall v m ys qs c1 c2, length ys = length qs ->
  word v -> word m -> words ys -> words qs -> word c1 -> word c2 ->
  mrow0 v m ys qs c1 c2 = mrow v m ys qs (repeat 0 (length ys)) c1 c2.
Proof.
  intros v m. induction ys as [|y ys IH]; intros [|q qs] c1 c2 L Hv Hm Hy Hq H1 H2; try discriminate L.
  - reflexivity.
  - injection L as L. inversion Hy; subst. inversion Hq; subst.
    assert (W0 : word 0) by (unfold word, B64; lia).
    destruct ys as [|y' ys].
    + destruct qs; [|discriminate L]. cbn [mrow0 mrow length repeat].
      rewrite madd1_2 by assumption. reflexivity.
    + destruct qs as [|q' qs]; [discriminate L|].
      change (mrow0 v m (y :: y' :: ys) (q :: q' :: qs) c1 c2) with
        (let '(c1, c0) := madd1 v y c1 in
         let '(c2, l) := madd2 m q c2 c0 in
         l :: mrow0 v m (y' :: ys) (q' :: qs) c1 c2).
      change (mrow v m (y :: y' :: ys) (q :: q' :: qs) (repeat 0 (length (y :: y' :: ys))) c1 c2) with
        (let '(c1, c0) := madd2 v y c1 0 in
         let '(c2, l) := madd2 m q c2 c0 in
         l :: mrow v m (y' :: ys) (q' :: qs) (repeat 0 (length (y' :: ys))) c1 c2).
      rewrite madd1_2 by assumption.
      destruct (madd1 v y c1) as [c1' c0] eqn:E1.
      destruct (madd1_spec _ _ _ _ _ E1) as (A1 & A2 & A3); auto.
      destruct (madd2 m q c2 c0) as [c2' l] eqn:E2.
      destruct (madd2_spec _ _ _ _ _ _ E2) as (A4 & A5 & A6); auto.
      rewrite IH by assumption. reflexivity.
Qed.
Lemma mround0_eq : forall v ys, word v -> fe6 ys -> mround0 v ys = mround v ys fb_zero.
Proof.
  intros v ys Hv [L W]. destruct ys as [|y ys]; [discriminate L|].
  inversion W; subst. unfold mround0, mround. cbn [hd].
  change (hd 0 fb_zero) with 0. rewrite madd1_mul by assumption.
  destruct (mul64 v y) as [c1 c0] eqn:E.
  destruct (mul64_spec _ _ _ _ E) as (A & B & C); auto.
  cbn [tl]. rewrite mrow0_eq; try assumption.
  - cbn [length] in L. injection L as L. rewrite L. reflexivity.
  - cbn in L |- *. lia.
  - apply Z.mod_pos_bound, B64_pos.
  - assert (Q : words bls_q) by apply q_fe6. inversion Q; subst. assumption.
  - unfold word in *. lia.
  - pose proof q_fe6 as [Lq Wq].
    apply (madd0_spec ((c0 * bls_inv) mod B64) (hd 0 bls_q) c0).
    + apply Z.mod_pos_bound, B64_pos.
    + inversion Wq; subst; assumption.
    + assumption.
    + rewrite Z.add_mod, Z.mul_mod_idemp_l, <- Z.add_mod by (unfold B64; lia).
      replace (c0 * bls_inv * hd 0 bls_q + c0) with (c0 * (bls_inv * hd 0 bls_q + 1)) by ring.
      rewrite Z.mul_mod, inv_ok, Z.mul_0_r by (unfold B64; lia). reflexivity.
Qed.

Lemma mrounds_spec : forall xs ys t, words xs -> fe6 ys -> fe6 t -> bval ys < bls_p ->
  bval t < bval ys + bls_p ->
  let r := fold_left (fun t v => mround v ys t) xs t in
  fe6 r /\ bval r < bval ys + bls_p /\
  exists m, B64 ^ Z.of_nat (length xs) * bval r = bval xs * bval ys + m * bls_p + bval t.
Proof.
  induction xs as [|v xs IH]; intros ys t Hx Hy Ht By Bt.
  - cbn [fold_left length Z.of_nat bval]. split; [exact Ht|]. split; [exact Bt|].
    exists 0. rewrite Z.pow_0_r. ring.
  - inversion Hx; subst. cbn [fold_left].
    destruct (mround_spec v ys t) as (F & U & m & E); auto.
    destruct (IH ys (mround v ys t)) as (F2 & U2 & m2 & E2); auto.
    cbv zeta. split; [exact F2|]. split; [exact U2|].
    exists (m + B64 * m2). cbn [length bval]. rewrite Nat2Z.inj_succ, Z.pow_succ_r by lia.
    rewrite <- Z.mul_assoc, E2, !Z.mul_add_distr_l, E. ring.
Qed.

Lemma fb_mul_raw : forall x y, fe6 x -> fe6 y -> bval y < bls_p ->
  fe6 (fb_mul x y) /\ 0 <= bval (fb_mul x y) < bls_p /\
  (bls_R * bval (fb_mul x y)) mod bls_p = (bval x * bval y) mod bls_p.
Proof.
  intros x y [Lx Wx] Hy By.
  destruct x as [|x0 xs]; [discriminate Lx|]. inversion Wx; subst.
  unfold fb_mul. rewrite mround0_eq by assumption.
  change (fold_left (fun t v => mround v y t) xs (mround x0 y fb_zero)) with
    (fold_left (fun t v => mround v y t) (x0 :: xs) fb_zero).
  assert (F0 : fe6 fb_zero) by (split; [reflexivity|]; repeat constructor; unfold word, B64; lia).
  pose proof (fe6_val y Hy) as Vy. pose proof p_R as [PR P1].
  destruct (mrounds_spec (x0 :: xs) y fb_zero) as (F & U & m & E); auto.
  { change (bval fb_zero) with 0. clear - Vy P1. lia. }
  rewrite Lx, R_pow in E. change (bval fb_zero) with 0 in E.
  set (r := fold_left _ _ _) in *.
  destruct (fb_reduce_spec r F) as [F2 V2]; [clear - U By; lia|].
  split; [exact F2|]. rewrite V2. split; [apply Z.mod_pos_bound; clear - P1; lia|].
  rewrite Z.mul_mod_idemp_r by (clear - P1; lia).
  rewrite E, Z.add_0_r, Z.mod_add by (clear - P1; lia). reflexivity.
Qed.
