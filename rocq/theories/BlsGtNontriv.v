(** The multiplicative group of the field of p^12 elements has an element of order r: a
    polynomial has no more roots than its degree. *)
From Coq Require Import ZArith List Bool Lia Ring Field FinFun.
From Verif Require Import Base ModelBlsF SpecBls ModelBls ModelBlsGT Fp BlsFp2 BlsFrob BlsTower SpecBlsSig SpecBlsMap ProofBlsI ProofBlsU ProofBlsV ProofBlsW ProofBlsY ProofBlsAA SpecBls SpecBlsG SpecBlsGT SpecBlsAte.
From Verif Require Tower Group.
Import ListNotations.
Local Open Scope Z_scope.

Section Roots.
Variables (K : Type) (O I : K) (add mul sub : K -> K -> K) (opp : K -> K) (div : K -> K -> K) (inv : K -> K).
Hypothesis Kt : field_theory O I add mul sub opp div inv eq.
Hypothesis dec : forall a b : K, {a = b} + {a <> b}.
Add Field KR : Kt.
(** f is a polynomial function of degree n with leading coefficient c *)
Fixpoint polyn (c : K) (n : nat) (f : K -> K) : Prop :=
  match n with
  | 0%nat => forall x, f x = c
  | S n => exists g a, polyn c n g /\ forall x, f x = add (mul x (g x)) a
  end.
Lemma polyn_quo c : forall n f, polyn c (S n) f -> forall r, exists q, polyn c n q /\ forall x, sub (f x) (f r) = mul (sub x r) (q x).
Proof using Kt.
  induction n as [|n IH]; intros f (g & a & G & E) r.
  - exists g. split; [exact G|]. intros x. rewrite !E. cbn [polyn] in G. rewrite !G. ring.
  - destruct (IH g G r) as (q & Q & H). exists (fun x => add (mul x (q x)) (g r)). split; [exists q, (g r); split; [exact Q | reflexivity]|].
    intros x. rewrite !E. transitivity (add (mul x (sub (g x) (g r))) (mul (sub x r) (g r))); [ring|]. rewrite H. ring.
Qed.
Lemma k_int0 a b : mul a b = O -> a = O \/ b = O.
Proof using Kt dec. intros H. destruct (dec a O) as [->|N]; [left; reflexivity|right]. transitivity (mul (inv a) (mul a b)); [field; exact N|]. rewrite H. ring. Qed.
Lemma roots_le c : c <> O -> forall n f l, polyn c n f -> NoDup l -> (forall x, In x l -> f x = O) -> (length l <= n)%nat.
Proof using Kt dec.
  intros Hc. induction n as [|n IH]; intros f [|r l] P N H; cbn [length]; try lia.
  - exfalso. apply Hc. rewrite <- (P r). apply H. left. reflexivity.
  - inversion N as [|r' l' Nr Nl]; subst. apply le_n_S. destruct (polyn_quo c n f P r) as (q & Q & E). apply (IH q l Q Nl).
    intros x Hx. specialize (E x). rewrite (H x (or_intror Hx)), (H r (or_introl eq_refl)) in E.
    destruct (k_int0 (sub x r) (q x)) as [D|D]; [rewrite <- E; ring| |exact D].
    exfalso. apply Nr. replace r with x; [exact Hx|]. transitivity (add (sub x r) r); [ring|]. rewrite D. ring.
Qed.
Lemma polyn_pw n : polyn I n (fun x => pw K I mul x n).
Proof using Kt. induction n as [|n IH]; [intros x; reflexivity|]. exists (fun x => pw K I mul x n), O. split; [exact IH|]. intros x. cbn [pw]. ring. Qed.
Lemma polyn_pw1 n : polyn I (S n) (fun x => sub (pw K I mul x (S n)) I).
Proof using Kt. exists (fun x => pw K I mul x n), (opp I). split; [apply polyn_pw|]. intros x. cbn [pw]. ring. Qed.
(** at most n elements have x^n = 1 *)
Theorem unity_roots n l : (0 < n)%nat -> NoDup l -> (forall x, In x l -> pw K I mul x n = I) -> (length l <= n)%nat.
Proof using Kt dec.
  intros Hn N H. destruct n as [|n]; [lia|]. apply (roots_le I (F_1_neq_0 Kt) (S n) _ l (polyn_pw1 n) N).
  intros x Hx. cbv beta. rewrite (H x Hx). ring.
Qed.
End Roots.

(** all elements of the field *)
Lemma NoDup_prod {A B} (l : list A) (m : list B) : NoDup l -> NoDup m -> NoDup (list_prod l m).
Proof.
  intros Hl Hm. induction Hl as [|x l Nx Hl IH]; [constructor|]. cbn [list_prod].
  assert (M : NoDup (map (fun y => (x, y)) m)) by (apply Injective_map_NoDup; [intros a b E; injection E; auto | exact Hm]).
  revert M. generalize (map (fun y => (x, y)) m) (in_map_iff (fun y : B => (x, y)) m). intros k Hk M.
  assert (D : forall z, In z k -> ~ In z (list_prod l m)).
  { intros z Hz Hp. apply Hk in Hz. destruct Hz as (y & <- & _). apply in_prod_iff in Hp. exact (Nx (proj1 Hp)). }
  clear Hk. induction M as [|z k Nz M IHk]; [exact IH|]. cbn [app]. constructor.
  - intros Hz. apply in_app_or in Hz. destruct Hz as [Hz|Hz]; [exact (Nz Hz) | exact (D z (or_introl eq_refl) Hz)].
  - apply IHk. intros w Hw. apply D. right. exact Hw.
Qed.
Definition all_fp (p : Z) : list (fp p) := map (fun n => fp_of p (Z.of_nat n)) (seq 0 (Z.to_nat p)).
Lemma all_fp_NoDup p : 0 < p -> NoDup (all_fp p).
Proof.
  intros Hp. unfold all_fp. assert (G : forall n o, (o + n <= Z.to_nat p)%nat -> NoDup (map (fun n => fp_of p (Z.of_nat n)) (seq o n))).
  { induction n as [|n IH]; intros o H; [constructor|]. cbn [seq map]. constructor; [|apply IH; lia].
    intros Hi. apply in_map_iff in Hi. destruct Hi as (k & E & Hk). apply in_seq in Hk. apply fp_of_eq in E. rewrite !Z.mod_small in E by lia. lia. }
  apply G. lia.
Qed.
Lemma all_fp_length p : length (all_fp p) = Z.to_nat p.
Proof. unfold all_fp. rewrite map_length, seq_length. reflexivity. Qed.
Definition mk6 (t : Fp2 * Fp2 * Fp2) := let '(a, b, c) := t in Tower.T6 Fp2 a b c.
Definition mk12' (t : Tower.t6 Fp2 * Tower.t6 Fp2) := Tower.T12 Fp2 (fst t) (snd t).
Section All.
Variable l : list Fp2.
Hypothesis Hl : NoDup l.
Definition all6 : list (Tower.t6 Fp2) := map mk6 (list_prod (list_prod l l) l).
Definition all12 : list F12 := map mk12' (list_prod all6 all6).
Lemma all12_NoDup : NoDup all12.
Proof using Hl.
  assert (A6 : NoDup all6).
  { apply Injective_map_NoDup; [|apply NoDup_prod; [apply NoDup_prod; exact Hl | exact Hl]].
    intros [[a b] c] [[a' b'] c'] E. injection E as -> -> ->. reflexivity. }
  apply Injective_map_NoDup; [|apply NoDup_prod; exact A6]. intros [a b] [a' b'] E. unfold mk12' in E. cbn [fst snd] in E. injection E as -> ->. reflexivity.
Qed.
Lemma all12_length : length all12 = (length l ^ 6)%nat.
Proof using. unfold all12, all6. rewrite !map_length, !prod_length, !map_length, !prod_length. cbn [Nat.pow]. lia. Qed.
End All.

(** (p^4 - p^2 + 1) / r *)
Definition cyc_h : Z := 4893928114585159410883253572318349434697260627536543127673143787635577013247573657951145569649455045371933135273331436655020524457945919286800884612463535847205871396556049495795446161178202464289525760157481578764179879456252000021461149480913048298580688352512594533579025647331945356418790935689117298357778419459780374425317529106012206555148879480645692101032144730178994813561.
Lemma cyc_eq : bls_p ^ 4 - bls_p ^ 2 + 1 = bls_r * cyc_h.
Proof. vm_compute. reflexivity. Qed.
Lemma h_pos : 0 < cyc_h. Proof. reflexivity. Qed.
Lemma p_ge2 : 2 <= bls_p. Proof. vm_compute. discriminate. Qed.
Definition cyc_k : Z := (bls_p ^ 6 - 1) * (bls_p ^ 2 + 1) * cyc_h.
Local Opaque zp bls_p bls_r Group.zmul cyc_h.
Lemma order_div : qm = bls_r * cyc_k.
Proof.
  unfold cyc_k. transitivity ((bls_p ^ 6 - 1) * (bls_p ^ 2 + 1) * (bls_r * cyc_h)); [|ring]. rewrite <- cyc_eq. unfold qm. ring.
Qed.
Section Count.
Variables (p0 k : Z) (N : nat).
Lemma no_room r : 0 < k -> 2 <= r -> p0 ^ 12 - 1 = r * k -> ~ p0 ^ 12 <= k + 1.
Proof using. intros Hk Hr E H. nia. Qed.
End Count.
Lemma r_ge2 : 2 <= bls_r.
Proof. exact (Z.lt_le_incl _ _ (Z.lt_trans 2 (2 ^ 64) bls_r eq_refl r_big)). Qed.
Lemma count_le n k : 0 < k -> (n <= S (Z.to_nat k))%nat -> Z.of_nat n <= k + 1.
Proof. lia. Qed.
Lemma to_nat_S k : 0 < k -> Z.to_nat k <> 0%nat.
Proof. lia. Qed.
Lemma pk_pos q : 2 <= q -> 0 < (q ^ 6 - 1) * (q ^ 2 + 1).
Proof. intros H. pose proof (proj1 (Z.pow_gt_1 q 6 ltac:(lia)) eq_refl). pose proof (Z.pow_nonneg q 2 ltac:(lia)). apply Z.mul_pos_pos; lia. Qed.
Lemma qk_pos : 0 < cyc_k.
Proof. exact (Z.mul_pos_pos _ _ (pk_pos bls_p p_ge2) h_pos). Qed.
Lemma p_pos : 0 < bls_p. Proof. reflexivity. Qed.
Definition elems : list F12 := all12 (list_prod (all_fp bls_p) (all_fp bls_p)).
Lemma elems_NoDup : NoDup elems.
Proof. apply all12_NoDup, NoDup_prod; exact (all_fp_NoDup bls_p p_pos). Qed.
Lemma elems_length : Z.of_nat (length elems) = bls_p ^ 12.
Proof.
  unfold elems. rewrite all12_length. assert (H : @length Fp2 (list_prod (all_fp bls_p) (all_fp bls_p)) = (Z.to_nat bls_p * Z.to_nat bls_p)%nat).
  { rewrite <- !(all_fp_length bls_p). exact (prod_length (all_fp bls_p) (all_fp bls_p)). }
  rewrite H, Nat2Z.inj_pow, Nat2Z.inj_mul, Z2Nat.id by (pose proof p_pos; lia).
  change (Z.of_nat 6) with 6. ring.
Qed.
Add Field K12N : K12.
Lemma Rmul_0_l' a : Mul12 Z12 a = Z12. Proof. ring. Qed.
Lemma sub_self0 a : Mul12 a (Sub12 O12 O12) = Z12. Proof. ring. Qed.
Theorem gt_nontrivial : exists a, zp bls_r a = O12 /\ a <> O12.
Proof.
  pose proof qk_pos as Hk. pose proof order_div as Hd. revert Hk Hd. generalize cyc_k as k. intros k Hk Hd.
  set (P := fun a : F12 => Mul12 a (Sub12 (pw F12 O12 Mul12 a (Z.to_nat k)) O12) = Z12).
  assert (D : forall a, {P a} + {~ P a}) by (intros a; apply F12_dec).
  destruct (Forall_Exists_dec P D elems) as [A|E].
  - exfalso. rewrite Forall_forall in A.
    assert (L : (length elems <= S (Z.to_nat k))%nat).
    { apply (roots_le F12 Z12 O12 Add12 Mul12 Sub12 Opp12 Div12 Inv12 K12 F12_dec O12 one_ne (S (Z.to_nat k)) (fun a => Mul12 a (Sub12 (pw F12 O12 Mul12 a (Z.to_nat k)) O12)) elems); [|exact elems_NoDup|exact A].
      destruct (Z.to_nat k) as [|n] eqn:En; [exfalso; exact (to_nat_S k Hk En)|].
      exists (fun a => Sub12 (pw F12 O12 Mul12 a (S n)) O12), Z12. split; [exact (polyn_pw1 F12 Z12 O12 Add12 Mul12 Sub12 Opp12 Div12 Inv12 K12 n)|].
      intros x. symmetry. exact (eq_trans (Radd_comm (F_R K12) _ _) (Radd_0_l (F_R K12) _)). }
    apply (no_room bls_p k bls_r Hk); [exact r_ge2 | exact Hd |]. rewrite <- elems_length. apply (count_le _ k Hk L).
  - apply Exists_exists in E. destruct E as (a & _ & N).
    assert (U : unit12 a). { intros ->. apply N. exact (Rmul_0_l' _). }
    exists (zp k a). split.
    + rewrite (zp_zp bls_r k a U). rewrite <- (order12 a U). f_equal. symmetry. exact Hd.
    + intros E. apply N. unfold P. rewrite <- (zp_pw (Z.to_nat k) a), (Z2Nat.id k (Z.lt_le_incl _ _ Hk)), E. exact (sub_self0 a).
Qed.

(** every number has a form *)
Lemma words_of n : forall m, 0 <= m < B64 ^ Z.of_nat n -> exists x, length x = n /\ Forall (fun w => 0 <= w < B64) x /\ bval x = m.
Proof.
  induction n as [|n IH]; intros m H.
  - exists []. split; [reflexivity|]. split; [constructor|]. change (B64 ^ Z.of_nat 0) with 1 in H. cbn [bval]. lia.
  - rewrite Nat2Z.inj_succ, Z.pow_succ_r in H by lia. assert (B : 0 < B64) by reflexivity.
    destruct (IH (m / B64)) as (x & L & W & V).
    + split; [apply Z.div_pos; lia|]. apply Z.div_lt_upper_bound; lia.
    + exists (m mod B64 :: x). split; [cbn [length]; f_equal; exact L|]. split; [constructor; [apply Z.mod_pos_bound; exact B | exact W]|].
      cbn [bval]. rewrite V. rewrite Z.add_comm. symmetry. apply Z.div_mod. lia.
Qed.
Lemma p_B : bls_p < B64 ^ Z.of_nat 6. Proof. reflexivity. Qed.
Lemma rep1_ex a : exists x, rep1 x a.
Proof.
  pose proof (Z.mod_pos_bound (fval a * bls_R) bls_p p_pos) as M. destruct (words_of 6 ((fval a * bls_R) mod bls_p)) as (x & L & W & V).
  - split; [exact (proj1 M) | exact (Z.lt_trans _ _ _ (proj2 M) p_B)].
  - exists x. split; [exact L|]. split; [exact W|]. split; [apply fval_bound; exact p_pos | exact V].
Qed.
Lemma rep2_ex a : exists x, rep2 x a.
Proof. destruct (rep1_ex (fst a)) as [x X], (rep1_ex (snd a)) as [y Y]. exists (x, y). exact (conj X Y). Qed.
Lemma rep6_ex a : exists x, rep6 x a.
Proof. destruct a as [a b c]. destruct (rep2_ex a) as [x X], (rep2_ex b) as [y Y], (rep2_ex c) as [z Z]. exists (ModelBlsGT.mk6 x y z). exact (conj X (conj Y Z)). Qed.
Lemma rep12_ex a : exists x, rep12 x a.
Proof. destruct a as [a b]. destruct (rep6_ex a) as [x X], (rep6_ex b) as [y Y]. exists (ModelBlsGT.mk12 x y). exact (conj X Y). Qed.
