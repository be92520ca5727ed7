(** The field functions of edwards25519.go compute modulo 2^255 - 19 and never
    overflow on limbs within the stated bounds. *)
Require Import ZArith List Lia Bool Znumtheory.
Require Import Verif.Base Verif.Words Verif.ModelSlp Verif.ModelEdCode Verif.ModelEd Verif.ProofSlp Verif.SpecEd.
Import ListNotations.
Open Scope Z_scope.


(** the weights of the limbs *)
Definition wts : list Z :=
  [1; 2 ^ 26; 2 ^ 51; 2 ^ 77; 2 ^ 102; 2 ^ 128; 2 ^ 153; 2 ^ 179; 2 ^ 204; 2 ^ 230].
Definition fev (f : fe) : Z := dot wts f.
(** limb bounds: c times (slightly more than) what FeCombine delivers *)
Definition bd (a b : Z) : list itv :=
  [(- a, a); (- b, b); (- a, a); (- b, b); (- a, a); (- b, b); (- a, a); (- b, b); (- a, a); (- b, b)].
Definition lev (c : Z) : list itv := bd (c * 33570816) (c * 16785408).
Definition lv (c : Z) (f : fe) : Prop := inL (lev c) f.
Definition eqp (x y : Z) : Prop := (p25 | x - y).

Lemma eqp_refl x : eqp x x. Proof. exists 0. lia. Qed.
Lemma eqp_sym x y : eqp x y -> eqp y x. Proof. intros [q E]. exists (- q). lia. Qed.
Lemma eqp_trans x y z : eqp x y -> eqp y z -> eqp x z.
Proof. intros [q E] [r E']. exists (q + r). lia. Qed.

(** ** Weakening of bounds *)
Definition subI (a b : itv) : bool := (fst b <=? fst a) && (snd a <=? snd b).
Fixpoint subL (a b : list itv) : bool :=
  match a, b with
  | [], [] => true
  | x :: a', y :: b' => subI x y && subL a' b'
  | _, _ => false
  end.
Lemma subL_ok a : forall b x, subL a b = true -> inL a x -> inL b x.
Proof.
  induction a as [|J a IH]; intros [|J' b] x H HI; try discriminate; [exact HI|].
  cbn in H. apply andb_prop in H. destruct H as [H1 H2]. inversion HI; subst.
  constructor; [|now apply IH]. unfold subI in H1. apply andb_prop in H1.
  rewrite !Z.leb_le in H1. unfold inI in *. lia.
Qed.

Lemma ten c f : lv c f -> exists f0 f1 f2 f3 f4 f5 f6 f7 f8 f9,
  f = [f0; f1; f2; f3; f4; f5; f6; f7; f8; f9] /\
  (- (c * 33570816) <= f0 <= c * 33570816) /\ (- (c * 16785408) <= f1 <= c * 16785408) /\
  (- (c * 33570816) <= f2 <= c * 33570816) /\ (- (c * 16785408) <= f3 <= c * 16785408) /\
  (- (c * 33570816) <= f4 <= c * 33570816) /\ (- (c * 16785408) <= f5 <= c * 16785408) /\
  (- (c * 33570816) <= f6 <= c * 33570816) /\ (- (c * 16785408) <= f7 <= c * 16785408) /\
  (- (c * 33570816) <= f8 <= c * 33570816) /\ (- (c * 16785408) <= f9 <= c * 16785408).
Proof.
  intros H. unfold lv, lev, bd, inL in H.
  repeat match goal with X : Forall2 _ (_ :: _) _ |- _ => inversion X; clear X; subst
                       | X : Forall2 _ [] _ |- _ => inversion X; clear X; subst end.
  do 10 eexists. split; [reflexivity|]. unfold inI in *. cbn [fst snd] in *. tauto.
Qed.

Lemma lv_weaken c c' f : c <= c' -> lv c f -> lv c' f.
Proof.
  intros H L. apply ten in L. destruct L as (f0&f1&f2&f3&f4&f5&f6&f7&f8&f9&->&L).
  unfold lv, lev, bd, inL. repeat constructor; unfold inI; cbn [fst snd]; lia.
Qed.

(** ** FeCombine *)
Lemma combine_value h : length h = 10%nat -> eqp (fev (zexec fe_combine_code h)) (fev h).
Proof.
  intros HL. apply (vexec_ok p25 wts fe_combine_code h); [now rewrite HL|]. vm_compute. reflexivity.
Qed.

Lemma map_i32_id Is x : inL Is x -> forallb (fits 32) Is = true -> map i32 x = x.
Proof.
  intros H. induction H as [|J v Is x HJ H IH]; [reflexivity|]. cbn. intros F. apply andb_prop in F.
  destruct F as [F1 F2]. rewrite IH by exact F2. f_equal. exact (fits_sgn 32 J v eq_refl F1 HJ).
Qed.

Lemma combine_ok Is h Js : inL Is h -> length Is = 10%nat -> iexec 64 fe_combine_code Is = Some Js ->
  subL Js (lev 1) = true -> lv 1 (FeCombine h) /\ eqp (fev (FeCombine h)) (fev h).
Proof.
  intros H HL E S. destruct (iexec_ok 64 eq_refl fe_combine_code Is h Js H E) as [E1 G].
  assert (G1 : lv 1 (zexec fe_combine_code h)) by exact (subL_ok _ _ _ S G).
  assert (Q : FeCombine h = zexec fe_combine_code h).
  { unfold FeCombine. rewrite E1. apply (map_i32_id (lev 1)); [exact G1|reflexivity]. }
  rewrite Q. split; [exact G1|]. apply combine_value. now rewrite (inL_length _ _ H).
Qed.

Lemma FeZero_lv : lv 1 FeZero.
Proof. unfold lv, lev, bd, inL, FeZero. repeat constructor; unfold inI; cbn; lia. Qed.
Lemma FeOne_lv : lv 1 FeOne.
Proof. unfold lv, lev, bd, inL, FeOne. repeat constructor; unfold inI; cbn; lia. Qed.
Lemma FeZero_val : fev FeZero = 0. Proof. reflexivity. Qed.
Lemma FeOne_val : fev FeOne = 1. Proof. reflexivity. Qed.

Lemma i32_id x : - 2147483648 <= x <= 2147483647 -> i32 x = x.
Proof. intros H. apply (sgn_id 32); [lia|]. change (2 ^ (32 - 1)) with 2147483648. lia. Qed.

Lemma FeAdd_ok c c' f g : lv c f -> lv c' g -> c + c' <= 63 -> lv (c + c') (FeAdd f g) /\ fev (FeAdd f g) = fev f + fev g.
Proof.
  intros F G H. apply ten in F, G.
  destruct F as (f0&f1&f2&f3&f4&f5&f6&f7&f8&f9&->&F). destruct G as (g0&g1&g2&g3&g4&g5&g6&g7&g8&g9&->&G).
  unfold FeAdd. cbn [map2]. rewrite !i32_id by lia. split.
  - unfold lv, lev, bd, inL. repeat constructor; unfold inI; cbn [fst snd]; lia.
  - unfold fev, wts. cbn [dot]. ring.
Qed.
Lemma FeSub_ok c c' f g : lv c f -> lv c' g -> c + c' <= 63 -> lv (c + c') (FeSub f g) /\ fev (FeSub f g) = fev f - fev g.
Proof.
  intros F G H. apply ten in F, G.
  destruct F as (f0&f1&f2&f3&f4&f5&f6&f7&f8&f9&->&F). destruct G as (g0&g1&g2&g3&g4&g5&g6&g7&g8&g9&->&G).
  unfold FeSub. cbn [map2]. rewrite !i32_id by lia. split.
  - unfold lv, lev, bd, inL. repeat constructor; unfold inI; cbn [fst snd]; lia.
  - unfold fev, wts. cbn [dot]. ring.
Qed.
Lemma FeNeg_ok c f : lv c f -> c <= 63 -> lv c (FeNeg f) /\ fev (FeNeg f) = - fev f.
Proof.
  intros F H. apply ten in F. destruct F as (f0&f1&f2&f3&f4&f5&f6&f7&f8&f9&->&F).
  unfold FeNeg. cbn [map]. rewrite !i32_id by lia. split.
  - unfold lv, lev, bd, inL. repeat constructor; unfold inI; cbn [fst snd]; lia.
  - unfold fev, wts. cbn [dot]. ring.
Qed.

(** ** Products *)
Definition getl (l : list Z) (i : nat) : Z := nth i l 0.
Lemma mul_value f g c c' : lv c f -> lv c' g ->
  eqp (fev (map (zev (f ++ g)) fe_mul_code)) (fev f * fev g).
Proof.
  intros F G. apply ten in F, G.
  destruct F as (f0&f1&f2&f3&f4&f5&f6&f7&f8&f9&->&F). destruct G as (g0&g1&g2&g3&g4&g5&g6&g7&g8&g9&->&G).
  clear F G.
  exists (- (1 * (2*f1*g9 + f2*g8 + 2*f3*g7 + f4*g6 + 2*f5*g5 + f6*g4 + 2*f7*g3 + f8*g2 + 2*f9*g1)
     + 2^26 * (f2*g9 + f3*g8 + f4*g7 + f5*g6 + f6*g5 + f7*g4 + f8*g3 + f9*g2)
     + 2^51 * (2*f3*g9 + f4*g8 + 2*f5*g7 + f6*g6 + 2*f7*g5 + f8*g4 + 2*f9*g3)
     + 2^77 * (f4*g9 + f5*g8 + f6*g7 + f7*g6 + f8*g5 + f9*g4)
     + 2^102 * (2*f5*g9 + f6*g8 + 2*f7*g7 + f8*g6 + 2*f9*g5)
     + 2^128 * (f6*g9 + f7*g8 + f8*g7 + f9*g6)
     + 2^153 * (2*f7*g9 + f8*g8 + 2*f9*g7)
     + 2^179 * (f8*g9 + f9*g8)
     + 2^204 * (2*f9*g9))).
  unfold fev, wts, p25, fe_mul_code. cbn [map app zev nth dot]. ring.
Qed.

Lemma square_value f c : lv c f -> fev (map (zev f) fe_square_code) = fev (map (zev (f ++ f)) fe_mul_code).
Proof.
  intros F. apply ten in F. destruct F as (f0&f1&f2&f3&f4&f5&f6&f7&f8&f9&->&F). clear F.
  unfold fev, wts, fe_mul_code, fe_square_code. cbn [map app zev nth dot]. ring.
Qed.

Definition some_or {A} (o : option A) (d : A) : A := match o with Some a => a | None => d end.
Definition mul_bounds : list itv := Eval vm_compute in some_or (ievs (lev 3 ++ lev 3) fe_mul_code) [].
Definition sq_bounds : list itv := Eval vm_compute in some_or (ievs (lev 3) fe_square_code) [].

Lemma inL_app a b x y : inL a x -> inL b y -> inL (a ++ b) (x ++ y).
Proof. intros H G. induction H; cbn; [exact G|constructor; assumption]. Qed.

Lemma FeMul_ok f g : lv 3 f -> lv 3 g -> lv 1 (FeMul f g) /\ eqp (fev (FeMul f g)) (fev f * fev g).
Proof.
  intros F G.
  assert (E : ievs (lev 3 ++ lev 3) fe_mul_code = Some mul_bounds) by (vm_compute; reflexivity).
  destruct (ievs_ok _ _ _ _ (inL_app _ _ _ _ F G) E) as [E1 H1].
  unfold FeMul. rewrite E1.
  destruct (combine_ok mul_bounds _ (some_or (iexec 64 fe_combine_code mul_bounds) []) H1 eq_refl) as [A B].
  - vm_compute. reflexivity.
  - vm_compute. reflexivity.
  - split; [exact A|]. exact (eqp_trans _ _ _ B (mul_value f g 3 3 F G)).
Qed.
Lemma FeSquare_ok f : lv 3 f -> lv 1 (FeSquare f) /\ eqp (fev (FeSquare f)) (fev f * fev f).
Proof.
  intros F.
  assert (E : ievs (lev 3) fe_square_code = Some sq_bounds) by (vm_compute; reflexivity).
  destruct (ievs_ok _ _ _ _ F E) as [E1 H1].
  unfold FeSquare, feSquare. rewrite E1.
  destruct (combine_ok sq_bounds _ (some_or (iexec 64 fe_combine_code sq_bounds) []) H1 eq_refl) as [A B].
  - vm_compute. reflexivity.
  - vm_compute. reflexivity.
  - split; [exact A|]. rewrite (square_value f 3 F) in B. exact (eqp_trans _ _ _ B (mul_value f f 3 3 F F)).
Qed.

Definition dblI (a : itv) : itv := addI a a.
Lemma dbl_ok Is x : inL Is x -> forallb (fun a => fits 64 (dblI a)) Is = true ->
  map (fun v => i64 (v + v)) x = map (fun v => v + v) x /\ inL (map dblI Is) (map (fun v => v + v) x).
Proof.
  intros H. induction H as [|J v Is x HJ H IH]; cbn [forallb map]; [split; [reflexivity|constructor]|].
  intros F. apply andb_prop in F. destruct F as [F1 F2]. destruct (IH F2) as [-> G].
  pose proof (addI_ok _ _ _ _ HJ HJ) as G1. split; [|constructor; assumption]. f_equal. exact (fits_sgn 64 _ _ eq_refl F1 G1).
Qed.
Lemma dot_dbl ws : forall x, dot ws (map (fun v => v + v) x) = 2 * dot ws x.
Proof. induction ws as [|w ws IH]; intros x; [cbn; lia|]. destruct x as [|v x]; cbn [map dot]; [lia|]. rewrite IH. lia. Qed.

Lemma FeSquare2_ok f : lv 3 f -> lv 1 (FeSquare2 f) /\ eqp (fev (FeSquare2 f)) (2 * (fev f * fev f)).
Proof.
  intros F.
  assert (E : ievs (lev 3) fe_square_code = Some sq_bounds) by (vm_compute; reflexivity).
  destruct (ievs_ok _ _ _ _ F E) as [E1 H1].
  unfold FeSquare2, feSquare. rewrite E1.
  destruct (dbl_ok _ _ H1) as [-> H2]; [vm_compute; reflexivity|].
  destruct (combine_ok _ _ (some_or (iexec 64 fe_combine_code (map dblI sq_bounds)) []) H2 eq_refl) as [A B].
  - vm_compute. reflexivity.
  - vm_compute. reflexivity.
  - split; [exact A|]. apply (eqp_trans _ _ _ B). rewrite (dot_dbl wts : forall x, fev (map (fun v => v + v) x) = 2 * fev x).
    rewrite (square_value f 3 F). destruct (mul_value f f 3 3 F F) as [q Q]. exists (2 * q).
    rewrite <- Z.mul_sub_distr_l. rewrite Q. ring.
Qed.

(** ** Bytes to limbs *)
Lemma from_arith l0 l1 l2 l3 l4 l5 l6 l7 l8 l9 :
  0 <= l0 < 4294967296 -> 0 <= l1 < 16777216 -> 0 <= l2 < 16777216 -> 0 <= l3 < 16777216 -> 0 <= l4 < 16777216 ->
  0 <= l5 < 4294967296 -> 0 <= l6 < 16777216 -> 0 <= l7 < 16777216 -> 0 <= l8 < 16777216 -> 0 <= l9 < 16777216 ->
  fev [l0 * 2 ^ 0; l1 * 2 ^ 6; l2 * 2 ^ 5; l3 * 2 ^ 3; l4 * 2 ^ 2; l5 * 2 ^ 0; l6 * 2 ^ 7; l7 * 2 ^ 5; l8 * 2 ^ 4; l9 mod 2 ^ 23 * 2 ^ 2] =
  (l0 + 2^32 * l1 + 2^56 * l2 + 2^80 * l3 + 2^104 * l4 + 2^128 * l5 + 2^160 * l6 + 2^184 * l7 + 2^208 * l8 + 2^232 * l9) mod 2 ^ 255.
Proof.
  intros A0 A1 A2 A3 A4 A5 A6 A7 A8 A9.
  pose proof (Z.mod_pos_bound l9 (2 ^ 23) eq_refl) as M. pose proof (Z.div_mod l9 (2 ^ 23) ltac:(lia)) as D.
  remember (l9 mod 2 ^ 23) as m eqn:Em. remember (l9 / 2 ^ 23) as q eqn:Eq. clear Em Eq.
  apply (Z.mod_unique _ _ q); [left|].
  - unfold fev, wts. cbn [dot]. lia.
  - unfold fev, wts. cbn [dot]. rewrite D. ring.
Qed.

Lemma from_value b0 b1 b2 b3 b4 b5 b6 b7 b8 b9 b10 b11 b12 b13 b14 b15 b16 b17 b18 b19 b20 b21 b22 b23 b24 b25 b26 b27 b28 b29 b30 b31 :
  let s := [b0;b1;b2;b3;b4;b5;b6;b7;b8;b9;b10;b11;b12;b13;b14;b15;b16;b17;b18;b19;b20;b21;b22;b23;b24;b25;b26;b27;b28;b29;b30;b31] in
  bytes_ok s ->
  let h := map (fun l => Z.shiftl (ld s (fst l)) (snd l)) fe_frombytes_code in
  inL (map (fun u => (0, u)) [2 ^ 32; 2 ^ 30; 2 ^ 29; 2 ^ 27; 2 ^ 26; 2 ^ 32; 2 ^ 31; 2 ^ 29; 2 ^ 28; 2 ^ 25]) h /\
  fev h = le2z s mod 2 ^ 255.
Proof.
  intros s Hs h.
  assert (L : forall off n, Z.land (-1) (Z.shiftr (loadn off n s) 0) = loadn off n s).
  { intros. rewrite Z.land_m1_l, Z.shiftr_0_r. reflexivity. }
  assert (M : Z.land 8388607 (Z.shiftr (loadn 29 3 s) 0) = loadn 29 3 s mod 2 ^ 23).
  { rewrite Z.shiftr_0_r, Z.land_comm. change 8388607 with (Z.ones 23). apply Z.land_ones. lia. }
  assert (B : forall off n, 0 <= loadn off n s < 256 ^ Z.of_nat n).
  { intros. rewrite loadn_val by exact Hs. apply Z.mod_pos_bound. apply Z.pow_pos_nonneg; lia. }
  unfold h, fe_frombytes_code. cbn [map fst snd ld]. rewrite M, !L.
  rewrite !Z.shiftl_mul_pow2 by lia. split.
  - pose proof (B 0%nat 4%nat). pose proof (B 4%nat 3%nat). pose proof (B 7%nat 3%nat). pose proof (B 10%nat 3%nat).
    pose proof (B 13%nat 3%nat). pose proof (B 16%nat 4%nat). pose proof (B 20%nat 3%nat). pose proof (B 23%nat 3%nat).
    pose proof (B 26%nat 3%nat). pose proof (Z.mod_pos_bound (loadn 29 3 s) (2 ^ 23) eq_refl).
    change (256 ^ Z.of_nat 3) with 16777216 in *. change (256 ^ Z.of_nat 4) with 4294967296 in *.
    clear B L M. clearbody s.
    unfold inL. repeat constructor; unfold inI; cbn [fst snd]; lia.
  - assert (E : le2z s = loadn 0 4 s + 2^32 * loadn 4 3 s + 2^56 * loadn 7 3 s + 2^80 * loadn 10 3 s + 2^104 * loadn 13 3 s
        + 2^128 * loadn 16 4 s + 2^160 * loadn 20 3 s + 2^184 * loadn 23 3 s + 2^208 * loadn 26 3 s + 2^232 * loadn 29 3 s).
    { unfold s, loadn. cbn [skipn firstn le2z]. ring. }
    rewrite E. clear E. pose proof (B 0%nat 4%nat) as A0. pose proof (B 4%nat 3%nat) as A1. pose proof (B 7%nat 3%nat) as A2. pose proof (B 10%nat 3%nat) as A3.
    pose proof (B 13%nat 3%nat) as A4. pose proof (B 16%nat 4%nat) as A5. pose proof (B 20%nat 3%nat) as A6. pose proof (B 23%nat 3%nat) as A7.
    pose proof (B 26%nat 3%nat) as A8. pose proof (B 29%nat 3%nat) as A9.
    change (256 ^ Z.of_nat 3) with 16777216 in *. change (256 ^ Z.of_nat 4) with 4294967296 in *.
    apply from_arith; assumption.
Qed.

Lemma len32 (s : bytes) : length s = 32%nat ->
  exists b0 b1 b2 b3 b4 b5 b6 b7 b8 b9 b10 b11 b12 b13 b14 b15 b16 b17 b18 b19 b20 b21 b22 b23 b24 b25 b26 b27 b28 b29 b30 b31,
  s = [b0;b1;b2;b3;b4;b5;b6;b7;b8;b9;b10;b11;b12;b13;b14;b15;b16;b17;b18;b19;b20;b21;b22;b23;b24;b25;b26;b27;b28;b29;b30;b31].
Proof.
  intros H. do 32 (destruct s as [|? s]; [discriminate|]). destruct s; [|discriminate].
  do 32 eexists. reflexivity.
Qed.

Lemma FeFromBytes_ok s : length s = 32%nat -> bytes_ok s ->
  lv 1 (FeFromBytes s) /\ eqp (fev (FeFromBytes s)) (le2z s mod 2 ^ 255).
Proof.
  intros HL Hs. destruct (len32 s HL) as (b0&b1&b2&b3&b4&b5&b6&b7&b8&b9&b10&b11&b12&b13&b14&b15&b16&b17&b18&b19&b20&b21&b22&b23&b24&b25&b26&b27&b28&b29&b30&b31&->).
  pose proof (from_value b0 b1 b2 b3 b4 b5 b6 b7 b8 b9 b10 b11 b12 b13 b14 b15 b16 b17 b18 b19 b20 b21 b22 b23 b24 b25 b26 b27 b28 b29 b30 b31 Hs) as [A B].
  unfold FeFromBytes. rewrite <- B.
  set (h := map _ fe_frombytes_code) in *.
  set (Is := map (fun u => (0, u)) _) in A.
  apply (combine_ok Is h (some_or (iexec 64 fe_combine_code Is) []) A eq_refl); clear; subst Is; vm_compute; reflexivity.
Qed.

(** ** Limbs to bytes *)
Lemma qstep h q k : (k = 25 \/ k = 26) -> - 110000000 <= h <= 110000000 -> - 60 <= q <= 60 ->
  Z.shiftr (i32 (h + q)) k = (h + q) / 2 ^ k /\ - 60 <= (h + q) / 2 ^ k <= 60.
Proof.
  intros Hk Hh Hq. rewrite i32_id by lia. rewrite Z.shiftr_div_pow2 by lia. split; [reflexivity|].
  destruct Hk as [-> | ->].
  - change (2 ^ 25) with 33554432. split; [apply Z.div_le_lower_bound; lia|apply Z.lt_succ_r, Z.div_lt_upper_bound; lia].
  - change (2 ^ 26) with 67108864. split; [apply Z.div_le_lower_bound; lia|apply Z.lt_succ_r, Z.div_lt_upper_bound; lia].
Qed.

Lemma div_chain h q a b : 0 < a -> 0 < b -> (h + q / a) / b = (q + a * h) / (a * b).
Proof.
  intros Ha Hb. rewrite <- Z.div_div by lia. f_equal. rewrite (Z.mul_comm a h), Z.div_add by lia. lia.
Qed.

Lemma fe_q_floor h : lv 3 h ->
  - 60 <= fe_q h <= 60 /\ fe_q h = (fev h + (19 * nth 9 h 0 + 2 ^ 24) / 2 ^ 25) / 2 ^ 255.
Proof.
  intros F. apply ten in F. destruct F as (h0&h1&h2&h3&h4&h5&h6&h7&h8&h9&->&F).
  unfold fe_q, fe_tobytes_q. cbn [fold_left nth fst snd].
  assert (Q0 : Z.shiftr (i32 (i32 (19 * h9) + 2 ^ 24)) 25 = (19 * h9 + 2 ^ 24) / 2 ^ 25 /\
               - 60 <= (19 * h9 + 2 ^ 24) / 2 ^ 25 <= 60).
  { rewrite (i32_id (19 * h9)) by lia. change (2 ^ 24) with 16777216. rewrite i32_id by lia.
    rewrite Z.shiftr_div_pow2 by lia. split; [reflexivity|]. change (2 ^ 25) with 33554432.
    split; [apply Z.div_le_lower_bound; lia|apply Z.lt_succ_r, Z.div_lt_upper_bound; lia]. }
  destruct Q0 as [-> B]. set (q := (19 * h9 + 2 ^ 24) / 2 ^ 25) in *. clearbody q.
  destruct (qstep h0 q 26 ltac:(auto) ltac:(lia) B) as [-> B0].
  destruct (qstep h1 _ 25 ltac:(auto) ltac:(lia) B0) as [-> B1].
  destruct (qstep h2 _ 26 ltac:(auto) ltac:(lia) B1) as [-> B2].
  destruct (qstep h3 _ 25 ltac:(auto) ltac:(lia) B2) as [-> B3].
  destruct (qstep h4 _ 26 ltac:(auto) ltac:(lia) B3) as [-> B4].
  destruct (qstep h5 _ 25 ltac:(auto) ltac:(lia) B4) as [-> B5].
  destruct (qstep h6 _ 26 ltac:(auto) ltac:(lia) B5) as [-> B6].
  destruct (qstep h7 _ 25 ltac:(auto) ltac:(lia) B6) as [-> B7].
  destruct (qstep h8 _ 26 ltac:(auto) ltac:(lia) B7) as [-> B8].
  destruct (qstep h9 _ 25 ltac:(auto) ltac:(lia) B8) as [-> B9].
  split; [exact B9|]. clear.
  rewrite (div_chain h1), (div_chain h2), (div_chain h3), (div_chain h4), (div_chain h5), (div_chain h6),
    (div_chain h7), (div_chain h8), (div_chain h9) by lia.
  f_equal. unfold fev, wts. cbn [dot]. ring.
Qed.

Lemma fe_q_quot h : lv 3 h -> fe_q h = fev h / p25.
Proof.
  intros F. destruct (fe_q_floor h F) as [_ ->]. apply ten in F.
  destruct F as (h0&h1&h2&h3&h4&h5&h6&h7&h8&h9&->&F).
  unfold fev, wts. cbn [dot nth].
  set (lo := 1 * h0 + (2 ^ 26 * h1 + (2 ^ 51 * h2 + (2 ^ 77 * h3 + (2 ^ 102 * h4 + (2 ^ 128 * h5 + (2 ^ 153 * h6 + (2 ^ 179 * h7 + 2 ^ 204 * h8)))))))).
  replace (1 * h0 + _) with (lo + 2 ^ 230 * h9) by (unfold lo; ring).
  assert (L : - (2 ^ 231 + 2 ^ 230) <= lo <= 2 ^ 231 + 2 ^ 230) by (unfold lo; lia).
  assert (H9 : - 60000000 <= h9 <= 60000000) by lia. clearbody lo. clear F.
  pose proof (Z.div_mod (lo + 2 ^ 230 * h9) p25 ltac:(unfold p25; lia)) as D.
  pose proof (Z.mod_pos_bound (lo + 2 ^ 230 * h9) p25 ltac:(unfold p25; lia)) as M.
  pose proof (Z.div_mod (19 * h9 + 2 ^ 24) (2 ^ 25) ltac:(lia)) as D2.
  pose proof (Z.mod_pos_bound (19 * h9 + 2 ^ 24) (2 ^ 25) ltac:(lia)) as M2.
  remember ((lo + 2 ^ 230 * h9) / p25) as q eqn:Eq. remember ((lo + 2 ^ 230 * h9) mod p25) as r eqn:Er.
  remember ((19 * h9 + 2 ^ 24) / 2 ^ 25) as c eqn:Ec. remember ((19 * h9 + 2 ^ 24) mod 2 ^ 25) as s eqn:Es.
  clear Eq Er Ec Es. symmetry. apply (Z.div_unique _ _ q (r - 19 * q + c)); [left|].
  - unfold p25 in *. lia.
  - unfold p25 in *. lia.
Qed.

Definition wbits : list Z := [26; 25; 26; 25; 26; 25; 26; 25; 26; 25].
Lemma cat_dot x : length x = 10%nat -> cat wbits x = fev x.
Proof.
  intros H. do 10 (destruct x as [|? x]; [discriminate|]). destruct x; [|discriminate].
  unfold wbits, fev, wts. cbn [cat dot]. ring.
Qed.

Definition tb_in : list itv := updI 0 (- 110000000, 110000000) (lev 3).
Definition canon : list itv :=
  [(0, 2 ^ 26 - 1); (0, 2 ^ 25 - 1); (0, 2 ^ 26 - 1); (0, 2 ^ 25 - 1); (0, 2 ^ 26 - 1);
   (0, 2 ^ 25 - 1); (0, 2 ^ 26 - 1); (0, 2 ^ 25 - 1); (0, 2 ^ 26 - 1); (0, 2 ^ 25 - 1)].

Lemma canon_limbs x : inL canon x -> Forall2 limb_ok wbits x.
Proof.
  unfold canon, wbits, inL. intros H.
  repeat match goal with X : Forall2 _ (_ :: _) _ |- _ => inversion X; clear X; subst
                       | X : Forall2 _ [] _ |- _ => inversion X; clear X; subst end.
  repeat constructor; unfold inI in *; cbn [fst snd] in *; lia.
Qed.

Lemma FeToBytes_ok h : lv 3 h ->
  le2z (fst (FeToBytes h)) = fev h mod p25 /\ length (fst (FeToBytes h)) = 32%nat /\
  bytes_ok (fst (FeToBytes h)) /\ lv 2 (snd (FeToBytes h)) /\ fev (snd (FeToBytes h)) = fev h mod p25.
Proof.
  intros F. destruct (fe_q_floor h F) as [B _]. pose proof (fe_q_quot h F) as Q.
  unfold FeToBytes. cbn [fst snd]. set (q := fe_q h) in *. clearbody q.
  assert (F0 := inL_nth _ _ 0 F ltac:(cbn; lia)). unfold inI in F0. cbn [nth lev bd fst snd] in F0.
  rewrite (i32_id (19 * q)) by lia. rewrite i32_id by lia.
  set (h1 := upd 0 (nth 0 h 0 + 19 * q) h).
  assert (L1 : inL tb_in h1). { apply inL_upd; [exact F|]. unfold inI. cbn [fst snd]. lia. }
  assert (HL : length h1 = 10%nat) by (rewrite (inL_length _ _ L1); reflexivity).
  assert (E : iexec 32 fe_tobytes_code tb_in = Some canon) by (vm_compute; reflexivity).
  destruct (iexec_ok 32 eq_refl _ _ _ _ L1 E) as [-> G].
  assert (Vm : (2 ^ 255 | fev (zexec fe_tobytes_code h1) - fev h1)).
  { apply (vexec_ok (2 ^ 255) wts fe_tobytes_code h1); [now rewrite HL|]. vm_compute. reflexivity. }
  assert (V1 : fev h1 = fev h + 19 * q).
  { unfold h1, fev. rewrite dot_upd; [cbn [nth wts]; lia| |]; rewrite (inL_length _ _ F); cbn; lia. }
  assert (VR : 0 <= fev (zexec fe_tobytes_code h1) <= 2 ^ 255 - 1). { exact (dotI_ok wts canon _ G). }
  assert (LZ : length (zexec fe_tobytes_code h1) = 10%nat) by (rewrite zexec_length; exact HL).
  set (z := zexec fe_tobytes_code h1) in *. clearbody z.
  assert (VV : fev z = fev h mod p25).
  { destruct Vm as [t Et]. rewrite V1 in Et. subst q.
    pose proof (Z.mod_eq (fev h) p25 ltac:(unfold p25; lia)) as M1.
    pose proof (Z.mod_pos_bound (fev h) p25 ltac:(unfold p25; lia)) as M2.
    assert (t = - (fev h / p25)); [|subst t].
    - unfold p25 in *. lia.
    - unfold p25 in *. lia. }
  split.
  - rewrite <- VV, <- (cat_dot z LZ). apply (out_bytes_value wbits).
    + vm_compute. reflexivity.
    + unfold wbits. repeat constructor; lia.
    + now apply canon_limbs.
    + rewrite (cat_dot z LZ). change (8 * Z.of_nat (length fe_tobytes_out)) with 256. lia.
    + rewrite (cat_dot z LZ). lia.
  - split; [apply out_bytes_length|]. split; [apply out_bytes_ok|]. split; [|exact VV].
    apply (subL_ok canon); [vm_compute; reflexivity|exact G].
Qed.

(** FeToBytes is the canonical little-endian encoding *)
Lemma FeToBytes_enc h : lv 3 h -> fst (FeToBytes h) = z2le 32 (fev h mod p25).
Proof.
  intros F. destruct (FeToBytes_ok h F) as (A & B & C & _). rewrite <- A, <- B. symmetry. now apply z2le_le2z.
Qed.

Lemma FeIsNegative_ok f : lv 3 f ->
  fst (FeIsNegative f) = (fev f mod p25) mod 2 /\ lv 2 (snd (FeIsNegative f)) /\ fev (snd (FeIsNegative f)) = fev f mod p25.
Proof.
  intros F. pose proof (FeToBytes_enc f F) as E. destruct (FeToBytes_ok f F) as (_ & _ & _ & D & V).
  unfold FeIsNegative. destruct (FeToBytes f) as [s f']. cbn [fst snd] in *. split; [|auto].
  rewrite E. change (z2le 32 ?x) with (x mod 256 :: z2le 31 (x / 256)). cbn [nth].
  change 1 with (Z.ones 1). rewrite Z.land_ones by lia. change (2 ^ 1) with 2.
  symmetry. apply Zmod_div_mod; [lia|lia|exists 128; reflexivity].
Qed.

Lemma or_zero s : forall x, 0 <= x < 256 -> bytes_ok s ->
  0 <= fold_left Z.lor s x < 256 /\ (fold_left Z.lor s x = 0 <-> x = 0 /\ le2z s = 0).
Proof.
  induction s as [|b s IH]; intros x Hx Hs; cbn [fold_left le2z]; [split; [exact Hx|tauto]|].
  inversion Hs as [|b' s' Hb Hs']; subst. unfold byte_ok in Hb.
  assert (HO : 0 <= Z.lor x b < 2 ^ 8). { apply Words.lor_bound; [lia|exact Hx|exact Hb]. }
  change (2 ^ 8) with 256 in HO. destruct (IH _ HO Hs') as [A B]. split; [exact A|]. rewrite B, Z.lor_eq_0_iff.
  pose proof (le2z_nonneg _ Hs'). lia.
Qed.

Lemma spread x : 0 <= x < 256 ->
  (let x := Z.lor x (Z.shiftr x 4) in let x := Z.lor x (Z.shiftr x 2) in let x := Z.lor x (Z.shiftr x 1) in Z.land x 1) =
  if x =? 0 then 0 else 1.
Proof.
  intros H. assert (A : forallb (fun n => let x := Z.of_nat n in
     (let x := Z.lor x (Z.shiftr x 4) in let x := Z.lor x (Z.shiftr x 2) in let x := Z.lor x (Z.shiftr x 1) in Z.land x 1) =?
     (if x =? 0 then 0 else 1)) (seq 0 256) = true) by (vm_compute; reflexivity).
  rewrite forallb_forall in A. specialize (A (Z.to_nat x) ltac:(apply in_seq; lia)). cbn zeta in A.
  rewrite Z2Nat.id in A by lia. apply Z.eqb_eq. exact A.
Qed.

Lemma FeIsNonZero_ok f : lv 3 f -> FeIsNonZero f = if fev f mod p25 =? 0 then 0 else 1.
Proof.
  intros F. destruct (FeToBytes_ok f F) as (A & _ & C & _). unfold FeIsNonZero.
  destruct (or_zero (fst (FeToBytes f)) 0 ltac:(lia) C) as [B1 B2]. rewrite A in B2.
  transitivity (if fold_left Z.lor (fst (FeToBytes f)) 0 =? 0 then 0 else 1); [exact (spread _ B1)|].
  destruct (Z.eqb_spec (fold_left Z.lor (fst (FeToBytes f)) 0) 0) as [E|E]; destruct (Z.eqb_spec (fev f mod p25) 0) as [E'|E']; tauto.
Qed.

(** FeCMove with b = 0 or 1 *)
Lemma FeCMove_ok f g b : (b = 0 \/ b = 1) -> length f = length g -> FeCMove f g b = if b =? 1 then g else f.
Proof.
  intros Hb. unfold FeCMove.
  assert (E : i32 (- b) = - b) by (apply i32_id; lia). rewrite E. clear E. revert g.
  induction f as [|x f IH]; intros [|y g] HL; try discriminate.
  - now destruct (b =? 1).
  - cbn [map2]. rewrite (IH g) by (cbn in HL; lia). destruct Hb as [-> | ->]; cbn [Z.eqb Z.opp].
    + rewrite Z.land_0_l, Z.lxor_0_r. reflexivity.
    + change (Pos.eqb 1 1) with true. rewrite Z.land_m1_l, <- Z.lxor_assoc, Z.lxor_nilpotent, Z.lxor_0_l. reflexivity.
Qed.

(** limb bounds of a constant *)
Definition lvb (f : fe) : bool := subL (map (fun x => (x, x)) f) (lev 1).
Lemma lvb_ok f : lvb f = true -> lv 1 f.
Proof.
  intros H. eapply subL_ok; [exact H|]. clear. unfold inL. induction f as [|x f IH]; cbn [map]; constructor; [|exact IH].
  unfold inI. cbn. lia.
Qed.
Lemma lv_length c f : lv c f -> length f = 10%nat.
Proof. intros H. apply ten in H. destruct H as (f0&f1&f2&f3&f4&f5&f6&f7&f8&f9&->&_). reflexivity. Qed.
