(** Counting in an abelian group: a group with few elements and a large subgroup
    of known exponent has that exponent itself. *)
From Coq Require Import ZArith List Lia Znumtheory.
From Verif Require Import Group.
Import ListNotations.
Local Open Scope Z_scope.

Lemma pigeon (f : Z -> Z) (n m : Z) : 0 < n -> (forall i, 0 <= i < n -> 0 <= f i < m) ->
  (forall i j, 0 <= i < n -> 0 <= j < n -> f i = f j -> i = j) -> n <= m.
Proof.
  intros N0 HB HI.
  assert (M0 : 0 <= m) by (specialize (HB 0); lia).
  set (l := map (fun k => f (Z.of_nat k)) (seq 0 (Z.to_nat n))).
  set (l' := map Z.of_nat (seq 0 (Z.to_nat m))).
  assert (L : (length l <= length l')%nat).
  { apply NoDup_incl_length.
    - unfold l.
      generalize (seq_NoDup (Z.to_nat n) 0).
      assert (Q : forall k, In k (seq 0 (Z.to_nat n)) -> 0 <= Z.of_nat k < n).
      { intros k Hk. apply in_seq in Hk. lia. }
      revert Q. generalize (seq 0 (Z.to_nat n)). induction l0 as [|a r IH]; intros Q ND; [constructor|].
      inversion ND as [|? ? NI ND']; subst. cbn [map]. constructor.
      + intros Hi. apply in_map_iff in Hi. destruct Hi as (b & E & Hb).
        apply HI in E; [|apply Q; right; exact Hb|apply Q; left; reflexivity].
        apply Nat2Z.inj in E. subst. contradiction.
      + apply IH; [|exact ND']. intros k Hk. apply Q. right. exact Hk.
    - intros x Hx. unfold l in Hx. apply in_map_iff in Hx. destruct Hx as (k & <- & Hk).
      apply in_seq in Hk. unfold l'. apply in_map_iff. exists (Z.to_nat (f (Z.of_nat k))).
      specialize (HB (Z.of_nat k) ltac:(lia)). split; [lia|]. apply in_seq. lia. }
  unfold l, l' in L. rewrite !map_length, !seq_length in L. lia.
Qed.

Section Count.
Context {T : Type} (zero : T) (add : T -> T -> T) (neg : T -> T) (ok : T -> Prop).
Hypothesis G : is_group T zero add neg ok.
Notation zm := (zmul zero add neg).

(** S has at least n elements *)
Definition many (S : T -> Prop) (n : Z) : Prop :=
  exists f : Z -> T, (forall i, 0 <= i < n -> S (f i)) /\
    (forall i j, 0 <= i < n -> 0 <= j < n -> f i = f j -> i = j).
Record sub (S : T -> Prop) : Prop := {
  s_ok : forall x, S x -> ok x;
  s_0 : S zero;
  s_add : forall x y, S x -> S y -> S (add x y);
  s_neg : forall x, S x -> S (neg x) }.
Definition kills (m : Z) (S : T -> Prop) : Prop := forall x, S x -> zm m x = zero.
(** S with P adjoined *)
Definition ext (S : T -> Prop) (P : T) : T -> Prop := fun X => exists s k, S s /\ X = add s (zm k P).

Lemma sub_zero : sub (fun x => x = zero).
Proof.
  split; intros; subst; [apply (g_zero _ _ _ _ _ G)|reflexivity| |].
  - apply (g_0_l _ _ _ _ _ G), (g_zero _ _ _ _ _ G).
  - apply (gneg_zero _ _ _ _ _ G).
Qed.
Lemma many_zero : many (fun x => x = zero) 1.
Proof. exists (fun _ => zero). split; [reflexivity|]. intros. lia. Qed.
Lemma kills_zero : kills 1 (fun x => x = zero).
Proof. intros x ->. apply (zmul_zero _ _ _ _ _ G). Qed.

Lemma ext_sub S P : sub S -> ok P -> sub (ext S P).
Proof.
  intros HS HP. split.
  - intros x (s & k & Hs & ->). apply (g_add _ _ _ _ _ G); [apply (s_ok S HS), Hs|apply (zmul_ok _ _ _ _ _ G), HP].
  - exists zero, 0. split; [apply (s_0 S HS)|]. cbn [zmul]. symmetry. apply (g_0_l _ _ _ _ _ G), (g_zero _ _ _ _ _ G).
  - intros x y (s & k & Hs & ->) (s' & k' & Hs' & ->). exists (add s s'), (k + k').
    split; [apply (s_add S HS); assumption|].
    pose proof (s_ok S HS _ Hs) as O1. pose proof (s_ok S HS _ Hs') as O2.
    pose proof (zmul_ok _ _ _ _ _ G k P HP) as O3. pose proof (zmul_ok _ _ _ _ _ G k' P HP) as O4.
    rewrite (zmul_add _ _ _ _ _ G) by exact HP.
    rewrite <- !(g_assoc _ _ _ _ _ G) by (auto using (g_add _ _ _ _ _ G)). f_equal.
    apply (gadd_swap _ _ _ _ _ G); auto.
  - intros x (s & k & Hs & ->). exists (neg s), (- k). split; [apply (s_neg S HS), Hs|].
    rewrite (gneg_add _ _ _ _ _ G); [|apply (s_ok S HS), Hs|apply (zmul_ok _ _ _ _ _ G), HP].
    rewrite (zmul_neg _ _ _ _ _ G) by exact HP. reflexivity.
Qed.

Lemma ext_many S n k P : sub S -> ok P -> 0 < n -> many S n ->
  (forall d, 0 < d < k -> ~ S (zm d P)) -> many (ext S P) (n * k).
Proof.
  intros HS HP Hn (f & F1 & F2) HD.
  exists (fun i => add (f (i mod n)) (zm (i / n) P)). split.
  - intros i Hi. exists (f (i mod n)), (i / n). split; [|reflexivity]. apply F1, Z.mod_pos_bound, Hn.
  - assert (W : forall u v a b, v <= u -> 0 <= u < k -> 0 <= v < k -> S a -> S b ->
                add a (zm u P) = add b (zm v P) -> u = v /\ a = b).
    { intros u v a b Hvu Hu Hv Ha Hb E.
      pose proof (s_ok S HS _ Ha) as Oa. pose proof (s_ok S HS _ Hb) as Ob.
      pose proof (zmul_ok _ _ _ _ _ G v P HP) as Ov. pose proof (zmul_ok _ _ _ _ _ G (u - v) P HP) as Ow.
      replace u with ((u - v) + v) in E by lia.
      rewrite (zmul_add _ _ _ _ _ G) in E by exact HP.
      rewrite (g_assoc _ _ _ _ _ G) in E by auto.
      assert (E2 : add a (zm (u - v) P) = b).
      { apply (gcancel _ _ _ _ _ G (zm v P)); auto using (g_add _ _ _ _ _ G).
        rewrite (g_comm _ _ _ _ _ G) by auto using (g_add _ _ _ _ _ G). rewrite E.
        apply (g_comm _ _ _ _ _ G); auto. }
      assert (E3 : zm (u - v) P = add (neg a) b).
      { rewrite <- E2, (g_assoc _ _ _ _ _ G) by auto using (g_neg _ _ _ _ _ G).
        rewrite (gneg_l _ _ _ _ _ G), (g_0_l _ _ _ _ _ G) by auto. reflexivity. }
      assert (u = v) as ->.
      { destruct (Z.eq_dec u v) as [|N]; [assumption|]. exfalso. apply (HD (u - v)); [lia|].
        rewrite E3. apply (s_add S HS); [apply (s_neg S HS), Ha|exact Hb]. }
      split; [reflexivity|]. rewrite Z.sub_diag in E2. cbn [zmul] in E2.
      rewrite <- E2. symmetry. apply (gadd_0_r _ _ _ _ _ G), Oa. }
    intros i j Hi Hj E.
    assert (Bi : 0 <= i / n < k) by (split; [apply Z.div_pos; lia|apply Z.div_lt_upper_bound; lia]).
    assert (Bj : 0 <= j / n < k) by (split; [apply Z.div_pos; lia|apply Z.div_lt_upper_bound; lia]).
    pose proof (Z.mod_pos_bound i n Hn) as Mi. pose proof (Z.mod_pos_bound j n Hn) as Mj.
    assert (Q : i / n = j / n /\ f (i mod n) = f (j mod n)).
    { destruct (Z.le_ge_cases (j / n) (i / n)) as [C|C].
      - apply (W (i / n) (j / n)); auto.
      - destruct (W (j / n) (i / n) (f (j mod n)) (f (i mod n))) as [A B]; auto. }
    destruct Q as [Q1 Q2]. apply F2 in Q2; [|exact Mi|exact Mj].
    rewrite (Z.div_mod i n), (Z.div_mod j n) by lia. rewrite Q1, Q2. reflexivity.
Qed.

Lemma zm_dvd q m P : ok P -> zm q P = zero -> (q | m) -> zm m P = zero.
Proof.
  intros HP Hq (c & ->). rewrite (zmul_mul _ _ _ _ _ G) by exact HP. rewrite Hq. apply (zmul_zero _ _ _ _ _ G).
Qed.
Lemma kills_dvd m m' S : sub S -> kills m S -> (m | m') -> kills m' S.
Proof. intros HS K D x Hx. apply (zm_dvd m); [apply (s_ok S HS), Hx|apply K, Hx|exact D]. Qed.
Lemma ext_kills m S P : sub S -> ok P -> kills m S -> zm m P = zero -> kills m (ext S P).
Proof.
  intros HS HP K H x (s & k & Hs & ->).
  pose proof (s_ok S HS _ Hs) as Os. pose proof (zmul_ok _ _ _ _ _ G k P HP) as Ok.
  rewrite (zmul_padd _ _ _ _ _ G) by auto. rewrite (K s Hs).
  rewrite <- (zmul_mul _ _ _ _ _ G) by exact HP. rewrite Z.mul_comm, (zmul_mul _ _ _ _ _ G) by exact HP.
  rewrite H, (zmul_zero _ _ _ _ _ G). apply (g_0_l _ _ _ _ _ G), (g_zero _ _ _ _ _ G).
Qed.

Lemma new_prime q m S P : prime q -> kills m S -> ~ (q | m) -> ok P -> zm q P = zero -> P <> zero ->
  forall d, 0 < d < q -> ~ S (zm d P).
Proof.
  intros Pq K ND HP Hq HN d Hd HS. apply K in HS. rewrite <- (zmul_mul _ _ _ _ _ G) in HS by exact HP.
  assert (D : (q | m * d)).
  { apply Z.mod_divide; [lia|]. apply (zmul_order _ _ _ _ _ G q (m * d) P HP Pq Hq HN) in HS. exact HS. }
  apply prime_mult in D; [|exact Pq]. destruct D as [D|D]; [exact (ND D)|].
  apply Z.divide_pos_le in D; lia.
Qed.
Lemma new_indep q m S P A : prime q -> sub S -> kills m S -> ~ (q | m) -> ok P -> ok A ->
  zm q P = zero -> zm q A = zero -> (forall k, 0 <= k < q -> A <> zm k P) ->
  forall d, 0 < d < q -> ~ ext S P (zm d A).
Proof.
  intros Pq HSub K ND HP HA HqP HqA HN d Hd (s & k & Hs & E).
  pose proof (s_ok S HSub _ Hs) as Os. pose proof (zmul_ok _ _ _ _ _ G k P HP) as Ok.
  assert (E1 : zm (m * d) A = zm (m * k) P).
  { rewrite !(zmul_mul _ _ _ _ _ G) by assumption. rewrite E, (zmul_padd _ _ _ _ _ G) by assumption.
    rewrite (K s Hs). apply (g_0_l _ _ _ _ _ G), (zmul_ok _ _ _ _ _ G), Ok. }
  assert (R : rel_prime (m * d) q).
  { apply rel_prime_sym. apply rel_prime_mult; apply prime_rel_prime; auto.
    intros D. apply Z.divide_pos_le in D; lia. }
  apply rel_prime_bezout in R. destruct R as [u v R].
  assert (E2 : A = zm (u * (m * k)) P).
  { rewrite (zmul_mul _ _ _ _ _ G) by exact HP. rewrite <- E1, <- (zmul_mul _ _ _ _ _ G) by exact HA.
    replace (u * (m * d)) with (1 + (- v) * q) by lia.
    rewrite (zmul_add _ _ _ _ _ G), (zmul_1 _ _ _ _ _ G), (zmul_mul _ _ _ _ _ G) by exact HA.
    rewrite HqA, (zmul_zero _ _ _ _ _ G), (gadd_0_r _ _ _ _ _ G) by exact HA. reflexivity. }
  rewrite <- (zmul_mod _ _ _ _ _ G q) in E2 by assumption.
  revert E2. apply HN. apply Z.mod_pos_bound. lia.
Qed.

(** The step of the chain of subgroups: a new prime, or a second point for the
    last prime *)
Record stage (S : T -> Prop) (n m : Z) : Prop := {
  st_sub : sub S; st_n : 0 < n; st_many : many S n; st_kills : kills m S }.
Lemma stage_zero : stage (fun x => x = zero) 1 1.
Proof. split; [exact sub_zero|lia|exact many_zero|exact kills_zero]. Qed.
Lemma stage_prime S n m q P : stage S n m -> prime q -> ~ (q | m) -> ok P -> zm q P = zero -> P <> zero ->
  stage (ext S P) (n * q) (m * q).
Proof.
  intros [HS Hn HM HK] Pq ND HP Hq HN. pose proof (prime_ge_2 q Pq).
  split; [apply ext_sub; assumption|lia| |].
  - apply ext_many; auto. apply (new_prime q m); auto.
  - apply ext_kills; auto.
    + apply (kills_dvd m); auto. exists q. lia.
    + apply (zm_dvd q); auto. exists m. lia.
Qed.
Lemma stage_two S n m q P A : stage S n m -> prime q -> ~ (q | m) -> ok P -> ok A ->
  zm q P = zero -> zm q A = zero -> P <> zero -> (forall k, 0 <= k < q -> A <> zm k P) ->
  stage (ext (ext S P) A) (n * q * q) (m * q).
Proof.
  intros St Pq ND HP HA HqP HqA HN HI. pose proof (prime_ge_2 q Pq).
  pose proof (stage_prime S n m q P St Pq ND HP HqP HN) as St2. destruct St2 as [HS2 Hn2 HM2 HK2].
  split; [apply ext_sub; assumption|lia| |].
  - apply ext_many; auto. apply (new_indep q m); auto; apply St.
  - apply ext_kills; auto. apply (zm_dvd q); auto. exists m. lia.
Qed.

Theorem stage_exponent S n m (code : T -> Z) c :
  stage S n m -> (forall x, ok x -> 0 <= code x < c) ->
  (forall x y, ok x -> ok y -> code x = code y -> x = y) -> c < n * 3 ->
  (forall x, ok x -> zm 2 x = zero -> x = zero) ->
  (forall x y : T, {x = y} + {x <> y}) ->
  forall x, ok x -> zm m x = zero.
Proof.
  intros [HS Hn HM HK] C1 C2 C3 T2 Dec x Hx.
  destruct (Dec (zm m x) zero) as [E|NE]; [exact E|]. exfalso.
  assert (M3 : many (ext S x) (n * 3)).
  { apply ext_many; auto. intros d Hd Hs. apply HK in Hs.
    rewrite <- (zmul_mul _ _ _ _ _ G) in Hs by exact Hx.
    assert (d = 1 \/ d = 2) as [->| ->] by lia.
    - rewrite Z.mul_1_r in Hs. contradiction.
    - rewrite Z.mul_comm, (zmul_mul _ _ _ _ _ G) in Hs by exact Hx.
      apply T2 in Hs; [contradiction|]. apply (zmul_ok _ _ _ _ _ G), Hx. }
  pose proof (ext_sub S x HS Hx) as ES. destruct M3 as (f & F1 & F2).
  assert (n * 3 <= c); [|lia].
  apply (pigeon (fun i => code (f i))); [lia| |].
  - intros i Hi. apply C1, (s_ok _ ES), F1, Hi.
  - intros i j Hi Hj E. apply F2; auto. apply C2; auto; apply (s_ok _ ES), F1; assumption.
Qed.
End Count.
