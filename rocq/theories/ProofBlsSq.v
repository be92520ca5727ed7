(** Squaring of the portable field code of BLS12-381 where no carry is lost. *)
From Coq Require Import ZArith List Bool Lia.
From Verif Require Import Base ModelBlsF SpecBls ProofBlsF ProofBlsE.
Import ListNotations.
Local Open Scope Z_scope.
Definition half (a : Z) : Prop := 0 <= a < 2 ^ 63.
Definition uh (a : Z) : Prop := 0 <= a <= 2 ^ 63 + 1.
Lemma half_word a : half a -> word a. Proof. unfold half, word, B64. lia. Qed.
Lemma uh_word a : uh a -> word a. Proof. unfold uh, word, B64. lia. Qed.
Lemma half_mul a b : half a -> half b -> 0 <= a * b <= (2 ^ 63 - 1) * (2 ^ 63 - 1).
Proof. unfold half. intros A B. split; [apply Z.mul_nonneg_nonneg; lia|apply Z.mul_le_mono_nonneg; lia]. Qed.
Lemma dm x : x = B64 * (x / B64) + x mod B64 /\ 0 <= x mod B64 < B64.
Proof. split; [apply Z.div_mod; discriminate|apply Z.mod_pos_bound; reflexivity]. Qed.
Ltac dms := repeat match goal with
  | |- context [?x / B64] => let E := fresh in let q := fresh "q" in let r := fresh "r" in pose proof (dm x) as E; set (q := x / B64) in *; set (r := x mod B64) in *; clearbody q r
  | |- context [?x mod B64] => let E := fresh in let q := fresh "q" in let r := fresh "r" in pose proof (dm x) as E; set (q := x / B64) in *; set (r := x mod B64) in *; clearbody q r
  end.
Lemma ms2_spec a b c e t u v : madd2s a b c 0 e = (t, u, v) -> half a -> half b -> word c -> word e ->
  t = 0 /\ uh u /\ word v /\ v + B64 * u = 2 * (a * b) + c + e.
Proof.
  intros E A B Hc He. pose proof (half_mul a b A B) as M. clear A B. revert E. unfold madd2s, mul64, add64. cbn [fst]. set (x := a * b) in *. clearbody x.
  dms. intros E. injection E as <- <- <-. unfold uh, word, B64 in *. lia.
Qed.
Lemma ms2b_spec a b c e t u v : madd2sb a b c e = (t, u, v) -> half a -> half b -> word c -> word e ->
  t = 0 /\ uh u /\ word v /\ v + B64 * u = 2 * (a * b) + c + e.
Proof.
  intros E A B Hc He. pose proof (half_mul a b A B) as M. clear A B. revert E. unfold madd2sb, mul64, add64. cbn [fst]. set (x := a * b) in *. clearbody x.
  dms. intros E. injection E as <- <- <-. unfold uh, word, B64 in *. lia.
Qed.
Lemma ms1_spec a b e t u v : madd1s a b 0 e = (t, u, v) -> half a -> half b -> word e ->
  t = 0 /\ uh u /\ word v /\ v + B64 * u = 2 * (a * b) + e.
Proof.
  intros E A B He. pose proof (half_mul a b A B) as M. clear A B. revert E. unfold madd1s, mul64, add64. cbn [fst]. set (x := a * b) in *. clearbody x.
  dms. intros E. injection E as <- <- <-. unfold uh, word, B64 in *. lia.
Qed.
Lemma ms1b_spec a b e t u v : madd1sb a b e = (t, u, v) -> half a -> half b -> word e ->
  t = 0 /\ uh u /\ word v /\ v + B64 * u = 2 * (a * b) + e.
Proof.
  intros E A B He. pose proof (half_mul a b A B) as M. clear A B. revert E. unfold madd1sb, mul64, add64. cbn [fst]. set (x := a * b) in *. clearbody x.
  dms. intros E. injection E as <- <- <-. unfold uh, word, B64 in *. lia.
Qed.

Lemma m1h a b c h l : madd1 a b c = (h, l) -> half a -> half b -> word c -> uh h /\ word l /\ l + B64 * h = a * b + c.
Proof.
  intros E A B Hc. destruct (madd1_spec _ _ _ _ _ E (half_word _ A) (half_word _ B) Hc) as (W1 & W2 & V). refine (conj _ (conj W2 V)).
  pose proof (half_mul a b A B) as M. clear E A B. set (x := a * b) in *. clearbody x. unfold uh, word, B64 in *. lia.
Qed.
Lemma mul_h a b h l : mul64 a b = (h, l) -> half a -> half b -> uh h /\ word l /\ l + B64 * h = a * b.
Proof.
  intros E A B. pose proof (half_mul a b A B) as M. clear A B. revert E. unfold mul64. set (x := a * b) in *. clearbody x.
  dms. intros E. injection E as <- <-. unfold uh, word, B64 in *. lia.
Qed.
Definition q5 : Z := 1873798617647539866.
Lemma m3_spec a c e f h l : madd3 a q5 c e f = (h, l) -> word a -> word c -> word e -> uh f ->
  word h /\ word l /\ l + B64 * h = a * q5 + c + e + B64 * f.
Proof.
  intros E A C D U. destruct (madd3_spec _ _ _ _ _ _ _ E) as (W1 & W2 & d & P & V); auto using uh_word; [unfold word, q5, B64; lia|].
  refine (conj W1 (conj W2 _)). assert (d = 0); [|subst d; lia]. clear E. unfold uh, word, q5, B64 in *. lia.
Qed.
Lemma mstart p0 : word p0 -> exists m C, (p0 * bls_inv) mod B64 = m /\ madd0 m 13402431016077863595 p0 = C /\
  word m /\ word C /\ B64 * C = m * 13402431016077863595 + p0.
Proof.
  intros W. eexists _, _. split; [reflexivity|]. split; [reflexivity|]. set (m := (p0 * bls_inv) mod B64).
  assert (Wm : word m) by (apply Z.mod_pos_bound, B64_pos). split; [exact Wm|]. apply madd0_spec; [exact Wm|unfold word, B64; lia|exact W|].
  unfold m. rewrite Z.add_mod, Z.mul_mod_idemp_l, <- Z.add_mod by (unfold B64; lia).
  replace (p0 * bls_inv * 13402431016077863595 + p0) with (p0 * (bls_inv * 13402431016077863595 + 1)) by ring.
  rewrite Z.mul_mod by (unfold B64; lia). replace ((bls_inv * 13402431016077863595 + 1) mod B64) with 0 by reflexivity. rewrite Z.mul_0_r. reflexivity.
Qed.
(** the reduction of one round *)
Lemma red_sum B q0 q1 q2 q3 q4 q5 m v0 v1 v2 v3 v4 v5 u C0 C1 C2 C3 C4 n0 n1 n2 n3 n4 n5 :
  B * C0 = m * q0 + v0 -> n0 + B * C1 = m * q1 + v1 + C0 -> n1 + B * C2 = m * q2 + v2 + C1 -> n2 + B * C3 = m * q3 + v3 + C2 ->
  n3 + B * C4 = m * q4 + v4 + C3 -> n4 + B * n5 = m * q5 + v5 + C4 + B * u ->
  B * (n0 + B * (n1 + B * (n2 + B * (n3 + B * (n4 + B * n5))))) =
  m * (q0 + B * (q1 + B * (q2 + B * (q3 + B * (q4 + B * q5))))) + (v0 + B * (v1 + B * (v2 + B * (v3 + B * (v4 + B * (v5 + B * u)))))).
Proof.
  intros H0 H1 H2 H3 H4 H5. assert (v0 = B * C0 - m * q0) by lia. assert (n0 = m * q1 + v1 + C0 - B * C1) by lia.
  assert (n1 = m * q2 + v2 + C1 - B * C2) by lia. assert (n2 = m * q3 + v3 + C2 - B * C3) by lia.
  assert (n3 = m * q4 + v4 + C3 - B * C4) by lia. assert (n4 = m * q5 + v5 + C4 + B * u - B * n5) by lia. subst. ring.
Qed.
Lemma ein l r x : l + x = r -> l = r - x. Proof. lia. Qed.
Definition Q := 13402431016077863595 + B64 * (2210141511517208575 + B64 * (7435674573564081700 + B64 * (7239337960414712511 + B64 * (5412103778470702295 + B64 * q5)))).
Lemma Q_p : Q = bls_p. Proof. reflexivity. Qed.
Ltac wd := first [assumption | apply half_word; assumption | apply uh_word; assumption | unfold word, B64; lia].
Ltac st :=
  match goal with
  | |- context [match madd3 ?a 1873798617647539866 ?c ?e ?f with pair _ _ => _ end] =>
      let h := fresh "n" in let l := fresh "n" in let E := fresh in change (madd3 a 1873798617647539866 c e f) with (madd3 a q5 c e f); destruct (madd3 a q5 c e f) as [h l] eqn:E; apply m3_spec in E; [destruct E as (? & ? & E)|wd..]
  | |- context [match madd2 ?a ?b ?c ?d with pair _ _ => _ end] =>
      let C := fresh "C" in let n := fresh "n" in let E := fresh in destruct (madd2 a b c d) as [C n] eqn:E; apply madd2_spec in E; [destruct E as (? & ? & E)|wd..]
  | |- context [match madd2s ?a ?b ?c 0 ?e with pair _ _ => _ end] =>
      let t := fresh "t" in let u := fresh "u" in let v := fresh "v" in let E := fresh in destruct (madd2s a b c 0 e) as [[t u] v] eqn:E; apply ms2_spec in E; [destruct E as (-> & ? & ? & E)|wd..]
  | |- context [match madd2sb ?a ?b ?c ?e with pair _ _ => _ end] =>
      let t := fresh "t" in let u := fresh "u" in let v := fresh "v" in let E := fresh in destruct (madd2sb a b c e) as [[t u] v] eqn:E; apply ms2b_spec in E; [destruct E as (-> & ? & ? & E)|wd..]
  | |- context [match madd1s ?a ?b 0 ?e with pair _ _ => _ end] =>
      let t := fresh "t" in let u := fresh "u" in let v := fresh "v" in let E := fresh in destruct (madd1s a b 0 e) as [[t u] v] eqn:E; apply ms1_spec in E; [destruct E as (-> & ? & ? & E)|wd..]
  | |- context [match madd1sb ?a ?b ?e with pair _ _ => _ end] =>
      let t := fresh "t" in let u := fresh "u" in let v := fresh "v" in let E := fresh in destruct (madd1sb a b e) as [[t u] v] eqn:E; apply ms1b_spec in E; [destruct E as (-> & ? & ? & E)|wd..]
  | |- context [match madd1 ?a ?b ?c with pair _ _ => _ end] =>
      let h := fresh "u" in let l := fresh "v" in let E := fresh in destruct (madd1 a b c) as [h l] eqn:E; apply m1h in E; [destruct E as (? & ? & E)|wd..]
  | |- context [match mul64 ?a ?b with pair _ _ => _ end] =>
      let h := fresh "u" in let l := fresh "v" in let E := fresh in destruct (mul64 a b) as [h l] eqn:E; apply mul_h in E; [destruct E as (? & ? & E)|wd..]
  end.
Ltac ms :=
  match goal with |- context [(?p0 * bls_inv) mod B64] =>
    let m := fresh "m" in let C := fresh "C" in let E1 := fresh in let E2 := fresh in let E := fresh in
    destruct (mstart p0) as (m & C & E1 & E2 & ? & ? & E); [wd|]; rewrite E1; rewrite E2; clear E1 E2 end.
(** one round: the new words and what they are worth *)
Lemma join6 (B V X T T' m : Z) : B * T' = m * Q + V -> V = T + X -> B * T' = T + X + m * Q. Proof. lia. Qed.
Ltac sub_all := repeat match goal with H : ?v + B64 * ?u = _ |- _ => is_var v; apply ein in H; subst v end.

Lemma all6 B Q X0 X1 X2 X3 X4 X5 T1 T2 T3 T4 T5 T6 m0 m1 m2 m3 m4 m5 :
  B * T1 = 0 + X0 + m0 * Q -> B * T2 = T1 + X1 + m1 * Q -> B * T3 = T2 + X2 + m2 * Q -> B * T4 = T3 + X3 + m3 * Q ->
  B * T5 = T4 + X4 + m4 * Q -> B * T6 = T5 + X5 + m5 * Q ->
  B ^ 6 * T6 = X0 + B * (X1 + B * (X2 + B * (X3 + B * (X4 + B * X5)))) + (m0 + B * (m1 + B * (m2 + B * (m3 + B * (m4 + B * m5))))) * Q.
Proof.
  intros E1 E2 E3 E4 E5 E6. assert (T1 = B * T2 - X1 - m1 * Q) by lia. assert (T2 = B * T3 - X2 - m2 * Q) by lia. assert (T3 = B * T4 - X3 - m3 * Q) by lia.
  assert (T4 = B * T5 - X4 - m4 * Q) by lia. assert (T5 = B * T6 - X5 - m5 * Q) by lia. subst. assert (X0 = B * (B * (B * (B * (B * (B * T6 - X5 - m5 * Q) - X4 - m4 * Q) - X3 - m3 * Q) - X2 - m2 * Q) - X1 - m1 * Q) - m0 * Q) by lia. subst. ring.
Qed.
Ltac clr := repeat match goal with H : _ + B64 * _ = _ |- _ => clear H | H : B64 * ?C = _ |- _ => is_var C; clear H end.
Ltac rnd R T X :=
  eassert (R : _ = _); [eapply (red_sum B64 13402431016077863595 2210141511517208575 7435674573564081700 7239337960414712511 5412103778470702295 q5); eassumption|];
  fold Q in R;
  match type of R with _ = _ + ?V =>
    let CH := fresh in assert (CH : V = T + X) by (clear R; sub_all; ring); apply (fun h => join6 _ _ _ _ _ _ h CH) in R; clear CH end; clr.
Section Sq.
Variables x0 x1 x2 x3 x4 x5 : Z.
Hypothesis H0 : half x0. Hypothesis H1 : half x1. Hypothesis H2 : half x2.
Hypothesis H3 : half x3. Hypothesis H4 : half x4. Hypothesis H5 : half x5.
Notation B := B64.
Notation V6 a b c d e f := (a + B * (b + B * (c + B * (d + B * (e + B * f))))).
Notation X0 := (x0 * (x0 + 2 * B * (x1 + B * (x2 + B * (x3 + B * (x4 + B * x5)))))).
Notation X1 := (B * (x1 * (x1 + 2 * B * (x2 + B * (x3 + B * (x4 + B * x5)))))).
Notation X2 := (B * B * (x2 * (x2 + 2 * B * (x3 + B * (x4 + B * x5))))).
Notation X3 := (B * B * B * (x3 * (x3 + 2 * B * (x4 + B * x5)))).
Notation X4 := (B * B * B * B * (x4 * (x4 + 2 * B * x5))).
Notation X5 := (B * B * B * B * B * (x5 * x5)).
Lemma m6 a b c d e f : word a -> word b -> word c -> word d -> word e -> word f -> 0 <= V6 a b c d e f < B ^ 6.
Proof using. unfold word, B64. lia. Qed.
Lemma sq_raw : exists r M, fb_square [x0; x1; x2; x3; x4; x5] = fb_reduce r /\ fe6 r /\ 0 <= M < B ^ 6 /\
  B ^ 6 * bval r = V6 x0 x1 x2 x3 x4 x5 * V6 x0 x1 x2 x3 x4 x5 + M * Q.
Proof using H0 H1 H2 H3 H4 H5.
  cbv beta iota delta [fb_square]. st. cbv zeta. ms. do 10 st. rnd R0 0 constr:(X0).
  match type of R0 with _ * ?T = _ => ms; do 10 st; rnd R1 T constr:(X1) end.
  match type of R1 with _ * ?T = _ => ms; do 9 st; rnd R2 T constr:(X2) end.
  match type of R2 with _ * ?T = _ => ms; do 8 st; rnd R3 T constr:(X3) end.
  match type of R3 with _ * ?T = _ => ms; do 7 st; rnd R4 T constr:(X4) end.
  match type of R4 with _ * ?T = _ => ms; do 6 st; rnd R5 T constr:(X5) end.
  pose proof (all6 _ _ _ _ _ _ _ _ _ _ _ _ _ _ _ _ _ _ _ _ R0 R1 R2 R3 R4 R5) as A. clear R0 R1 R2 R3 R4 R5.
  match type of A with _ = _ + ?M * Q => eexists _, M end. split; [reflexivity|]. split; [split; [reflexivity|repeat (constructor; [wd|]); constructor]|]. 
  split; [apply m6; wd|]. cbn [bval]. rewrite Z.mul_0_r, Z.add_0_r. etransitivity; [exact A|]. ring.
Qed.
End Sq.

Definition low63 (x : list Z) : Prop := Forall (fun w => w < 2 ^ 63) x.
Lemma B6 : B64 ^ 6 = bls_R. Proof. reflexivity. Qed.
Lemma gen_bound R T X M p : 0 <= X < p -> p < R -> 0 <= M < R -> 0 < R -> R * T = X * X + M * p -> T < 2 * p.
Proof. intros A B C D E. assert (X * X < R * p) by nia. assert (M * p <= R * p) by nia. nia. Qed.
Lemma pb_square : forall x u, fe_of x u -> low63 x -> fe_of (fb_square x) ((u * u) mod bls_p).
Proof.
  intros x u Hx L. destruct (fe_of_in _ _ Hx) as [Fx Bx]. pose proof Fx as [Ln W].
  destruct x as [|x0 [|x1 [|x2 [|x3 [|x4 [|x5 [|]]]]]]]; try discriminate Ln.
  unfold low63 in L. assert (HH : forall w, word w -> w < 2 ^ 63 -> half w) by (unfold word, half; lia).
  repeat match goal with H : Forall _ (_ :: _) |- _ => inversion H; clear H; subst | H : words (_ :: _) |- _ => inversion H; clear H; subst end.
  destruct (sq_raw x0 x1 x2 x3 x4 x5) as (r & M & E & Fr & BM & V); [apply HH; assumption..|].
  set (x := [x0; x1; x2; x3; x4; x5]) in *.
  assert (VX : bval x = x0 + B64 * (x1 + B64 * (x2 + B64 * (x3 + B64 * (x4 + B64 * x5))))) by (unfold x; cbn [bval]; ring).
  rewrite <- VX, Q_p, B6 in V. rewrite B6 in BM. pose proof p_R as [PR P1]. pose proof (fe6_val x Fx) as VB.
  assert (U : bval r < 2 * bls_p).
  { apply (gen_bound bls_R (bval r) (bval x) M bls_p); [split; [exact (proj1 VB)|exact Bx]|clear - PR P1; lia|exact BM|reflexivity|exact V]. }
  destruct (fb_reduce_spec r Fr U) as [F2 V2]. rewrite <- E in F2, V2.
  apply (mul_gen _ x x u u F2).
  - rewrite V2. apply Z.mod_pos_bound. clear - P1. lia.
  - rewrite V2, Z.mul_mod_idemp_r by (clear - P1; lia). rewrite V, Z.mod_add by (clear - P1; lia). reflexivity.
  - destruct Hx as (_ & _ & _ & ->). apply Z.mod_mod. clear - P1. lia.
  - destruct Hx as (_ & _ & _ & ->). apply Z.mod_mod. clear - P1. lia.
Qed.
