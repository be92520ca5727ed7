(** Scalar multiplication in edwards25519.go. *)
Require Import ZArith List Lia Bool Znumtheory Field.
Require Import Verif.Base Verif.Words Verif.Fp Verif.Group Verif.Edw Verif.SpecEd Verif.EdCurve Verif.ModelSlp Verif.ModelEdCode Verif.ModelEd Verif.ProofSlp Verif.ProofEdF Verif.ProofEdG Verif.ProofEdC Verif.ProofEdN Verif.ProofEdT.
Import ListNotations.
Open Scope Z_scope.
Lemma Kf25m : field_theory (fz 0) (fz 1) fp_add fp_mul fp_sub fp_opp fp_div fp_inv (@eq F25).
Proof. exact Kf25. Qed.
Add Field KF25m : Kf25m.

Lemma ed_add_on P Q : ed_on P -> ed_on Q -> ed_on (ed_add P Q).
Proof. exact (g_add _ _ _ _ _ ed_group P Q). Qed.
Lemma ed_mul_add j k P : ed_on P -> ed_mul (j + k) P = ed_add (ed_mul j P) (ed_mul k P).
Proof. exact (zmul_add _ _ _ _ _ ed_group j k P). Qed.
Lemma ed_mul_neg k P : ed_on P -> ed_mul (- k) P = ed_neg (ed_mul k P).
Proof. exact (zmul_neg _ _ _ _ _ ed_group k P). Qed.
Lemma ed_mul_dbl k P : ed_on P -> ed_mul (2 * k) P = ed_add (ed_mul k P) (ed_mul k P).
Proof. exact (zmul_double _ _ _ _ _ ed_group k P). Qed.
Lemma ed_mul_1 P : ed_on P -> ed_mul 1 P = P.
Proof. exact (zmul_1 _ _ _ _ _ ed_group P). Qed.

(** ** The constant-time lookup *)
Lemma equal_ok b c : 0 <= b < 2 ^ 31 -> 0 <= c < 2 ^ 31 -> equal b c = if b =? c then 1 else 0.
Proof.
  intros Hb Hc. unfold equal.
  assert (B : 0 <= Z.lxor b c < 2 ^ 31) by (apply lxor_bound; [lia|exact Hb|exact Hc]).
  rewrite (Z.mod_small (Z.lxor b c)) by lia. rewrite Z.shiftr_div_pow2 by lia.
  destruct (Z.eqb_spec b c) as [->|N].
  - rewrite Z.lxor_nilpotent. reflexivity.
  - assert (Z.lxor b c <> 0) by (intros E; apply N; now apply Z.lxor_eq).
    rewrite Z.mod_small by lia. apply Z.div_small. lia.
Qed.
Lemma negative_ok b : -128 <= b < 128 -> negative b = if b <? 0 then 1 else 0.
Proof.
  intros H. unfold negative. change 1 with (Z.ones 1) at 1. rewrite Z.land_ones, Z.shiftr_div_pow2 by lia.
  change (2 ^ 1) with 2. destruct (Z.ltb_spec b 0) as [L|L].
  - replace (b / 2 ^ 31) with (-1); [reflexivity|]. apply (Z.div_unique_pos _ _ _ (b + 2 ^ 31)); lia.
  - rewrite Z.div_small by lia. reflexivity.
Qed.
Definition pre10 (q : pre) : Prop := length (rP q) = 10%nat /\ length (rM q) = 10%nat /\ length (rD q) = 10%nat.
Lemma pre_rep_10 q P : pre_rep q P -> pre10 q.
Proof. intros ([A _] & [B _] & [C _]). repeat split; eapply lv_length; eassumption. Qed.
Lemma pre_cmove_ok t u b : (b = 0 \/ b = 1) -> pre10 t -> pre10 u -> pre_cmove t u b = if b =? 1 then u else t.
Proof.
  intros Hb (A & B & C) (A' & B' & C'). unfold pre_cmove. rewrite !FeCMove_ok by (try exact Hb; congruence).
  destruct (b =? 1); [now destruct u|now destruct t].
Qed.

Lemma lookup_ok row a : (forall j, (j < 8)%nat -> pre10 (nth j row r0)) -> 0 <= a <= 255 -> forall n, (n <= 8)%nat ->
  fold_left (fun t i => pre_cmove t (nth i row r0) (equal a (Z.of_nat i + 1))) (seq 0 n) pre_zero =
  (if (1 <=? a) && (a <=? Z.of_nat n) then nth (Z.to_nat (a - 1)) row r0 else pre_zero).
Proof.
  intros H10 Ha. induction n as [|n IH]; intros Hn.
  - cbn [seq fold_left]. destruct (Z.leb_spec 1 a), (Z.leb_spec a (Z.of_nat 0)); cbn [andb]; try reflexivity. lia.
  - rewrite seq_S, fold_left_app, (IH ltac:(lia)). cbn [fold_left Nat.add].
    rewrite equal_ok by lia.
    assert (P10 : pre10 (if (1 <=? a) && (a <=? Z.of_nat n) then nth (Z.to_nat (a - 1)) row r0 else pre_zero)).
    { destruct (Z.leb_spec 1 a), (Z.leb_spec a (Z.of_nat n)); cbn [andb]; try (eapply pre_rep_10; exact pre_zero_rep). apply H10. lia. }
    rewrite pre_cmove_ok; [|destruct (a =? _); auto|exact P10|apply H10; lia]. clear P10.
    rewrite Nat2Z.inj_succ. destruct (Z.eqb_spec a (Z.of_nat n + 1)) as [E|E].
    + change (1 =? 1) with true. destruct (Z.leb_spec 1 a), (Z.leb_spec a (Z.succ (Z.of_nat n))); cbn [andb]; try lia.
      f_equal. lia.
    + change (0 =? 1) with false. destruct (Z.leb_spec 1 a), (Z.leb_spec a (Z.of_nat n)), (Z.leb_spec a (Z.succ (Z.of_nat n))); cbn [andb]; try reflexivity; lia.
Qed.

(** the digit that selectPoint looks up: outside [-8, 8] it returns the neutral element *)
Definition sel (d : Z) : Z := if (-8 <=? d) && (d <=? 8) then d else 0.

Lemma pre_neg_rep t P : pre_rep t P -> pre_rep (mkpre (rM t) (rP t) (FeNeg (rD t))) (ed_neg P).
Proof.
  destruct P as [x y]. intros (A & B & C). unfold pre_rep, ed_neg, e_neg. cbn [rP rM rD fst snd] in *.
  split; [eapply rep_eq; [exact B|ring]|]. split; [eapply rep_eq; [exact A|ring]|].
  eapply rep_eq; [apply rep_neg; [exact C|lia]|ring].
Qed.

Lemma abs_ok b : -128 <= b < 128 ->
  i32 (b - i32 (Z.shiftl (Z.land (i32 (- (if b <? 0 then 1 else 0))) b) 1)) = Z.abs b.
Proof.
  intros H. destruct (Z.ltb_spec b 0) as [L|L].
  - change (i32 (-1)) with (-1). rewrite Z.land_m1_l, Z.shiftl_mul_pow2 by lia. rewrite (i32_id (b * 2 ^ 1)) by lia. rewrite i32_id by lia. lia.
  - change (i32 (-0)) with 0. rewrite Z.land_0_l. change (i32 (Z.shiftl 0 1)) with 0. rewrite i32_id by lia. lia.
Qed.

Lemma selectPoint_rep pos b : (pos < 32)%nat -> -128 <= b < 128 ->
  pre_rep (selectPoint pos b) (ed_mul (sel b * 256 ^ Z.of_nat pos) ed_B).
Proof.
  intros Hp Hb. unfold selectPoint. cbv zeta. rewrite (negative_ok b Hb).
  rewrite (abs_ok b Hb).
  set (row := nth pos base []).
  assert (H10 : forall j, (j < 8)%nat -> pre10 (nth j row r0)).
  { intros j Hj. eapply pre_rep_10. apply (base_ok pos j Hp Hj). }
  rewrite (lookup_ok row (Z.abs b) H10 ltac:(lia) 8 ltac:(lia)).
  set (t := if (1 <=? Z.abs b) && (Z.abs b <=? Z.of_nat 8) then nth (Z.to_nat (Z.abs b - 1)) row r0 else pre_zero).
  assert (T : pre_rep t (ed_mul (Z.abs (sel b) * 256 ^ Z.of_nat pos) ed_B)).
  { unfold t, sel. destruct (Z.leb_spec 1 (Z.abs b)), (Z.leb_spec (Z.abs b) (Z.of_nat 8)), (Z.leb_spec (-8) b), (Z.leb_spec b 8); cbn [andb]; try lia; try (exact pre_zero_rep).
    - replace (Z.abs b) with (Z.of_nat (Z.to_nat (Z.abs b - 1)) + 1) at 2 by lia. apply base_ok; lia.
    - assert (b = 0) as -> by lia. exact pre_zero_rep. }
  clearbody t. pose proof (pre_neg_rep _ _ T) as TN.
  assert (ON : ed_on ed_B) by exact ed_B_on.
  rewrite pre_cmove_ok; [|destruct (b <? 0); auto|exact (pre_rep_10 _ _ T)|exact (pre_rep_10 _ _ TN)].
  destruct (Z.ltb_spec b 0) as [L|L].
  - change (1 =? 1) with true. cbv iota. rewrite <- ed_mul_neg in TN by exact ON.
    replace (sel b * 256 ^ Z.of_nat pos) with (- (Z.abs (sel b) * 256 ^ Z.of_nat pos)); [exact TN|].
    replace (Z.abs (sel b)) with (- sel b); [ring|]. unfold sel. destruct ((-8 <=? b) && (b <=? 8)); lia.
  - change (0 =? 1) with false. cbv iota. replace (sel b) with (Z.abs (sel b)); [exact T|].
    unfold sel. destruct ((-8 <=? b) && (b <=? 8)); lia.
Qed.

(** ** GeScalarMultBase *)
Lemma base_step_rep e h i k : (i < 64)%nat -> -128 <= nth i e 0 < 128 -> ext_rep 1 h (ed_mul k ed_B) ->
  ext_rep 1 (base_step e h i) (ed_mul (k + sel (nth i e 0) * 256 ^ Z.of_nat (i / 2)) ed_B).
Proof.
  intros Hi He Hh. unfold base_step. rewrite ed_mul_add by exact ed_B_on. apply comp_toext_rep.
  eapply geMixedAdd_rep; [| | |exact Hh|apply selectPoint_rep; [|exact He]].
  - lia.
  - apply ed_mul_on, ed_B_on.
  - apply ed_mul_on, ed_B_on.
  - apply Nat.div_lt_upper_bound; lia.
Qed.
Lemma base_fold_rep e : (forall i, (i < 64)%nat -> -128 <= nth i e 0 < 128) -> forall is h k,
  (forall i, In i is -> (i < 64)%nat) -> ext_rep 1 h (ed_mul k ed_B) ->
  ext_rep 1 (fold_left (base_step e) is h)
    (ed_mul (fold_left (fun k i => k + sel (nth i e 0) * 256 ^ Z.of_nat (i / 2)) is k) ed_B).
Proof.
  intros He. induction is as [|i is IH]; intros h k Hi Hh; cbn [fold_left]; [exact Hh|].
  apply IH; [intros j Hj; apply Hi; now right|]. apply base_step_rep; [apply Hi; now left|apply He, Hi; now left|exact Hh].
Qed.

Definition odds : list nat := map (fun i => 2 * i + 1)%nat (seq 0 32).
Definition evens : list nat := map (fun i => 2 * i)%nat (seq 0 32).
Definition step_sum (e : list Z) (k : Z) (i : nat) : Z := k + sel (nth i e 0) * 256 ^ Z.of_nat (i / 2).

Lemma hval64 e : length e = 64%nat ->
  fold_left (step_sum e) evens (16 * fold_left (step_sum e) odds 0) = hval 16 (map sel e).
Proof.
  intros HL.
  assert (G : forall n l, length l = (2 * n)%nat -> forall off k,
     (forall j, nth j l 0 = nth (2 * off + j) e 0) ->
     fold_left (step_sum e) (map (fun i => 2 * i)%nat (seq off n)) k +
     16 * fold_left (step_sum e) (map (fun i => 2 * i + 1)%nat (seq off n)) 0 = k + 256 ^ Z.of_nat off * hval 16 (map sel l)).
  { assert (A : forall is k, fold_left (step_sum e) is k = k + fold_left (step_sum e) is 0).
    { induction is as [|i is IH]; intros k; cbn [fold_left]; [lia|]. rewrite IH, (IH (step_sum e 0 i)). unfold step_sum. lia. }
    induction n as [|n IH]; intros l Hl off k Hn.
    - destruct l; [|cbn in Hl; lia]. cbn [seq map fold_left hval]. lia.
    - destruct l as [|x [|y l]]; try (cbn in Hl; lia). cbn [seq map fold_left].
      rewrite (A _ (step_sum e 0 (2 * off + 1))).
      assert (Hl' : length l = (2 * n)%nat) by (cbn in Hl; lia).
      assert (Hn' : forall j, nth j l 0 = nth (2 * S off + j) e 0).
      { intros j. specialize (Hn (S (S j))). cbn [nth] in Hn. rewrite Hn. f_equal. lia. }
      specialize (IH l Hl' (S off) (step_sum e k (2 * off)) Hn').
      transitivity (step_sum e k (2 * off) + 256 ^ Z.of_nat (S off) * hval 16 (map sel l) + 16 * step_sum e 0 (2 * off + 1)); [rewrite <- IH; ring|].
      unfold step_sum. cbn [map hval].
      pose proof (Hn 0%nat) as E0. pose proof (Hn 1%nat) as E1. cbn [nth] in E0, E1. rewrite Nat.add_0_r in E0.
      rewrite <- E0, <- E1. replace ((2 * off) / 2)%nat with off by (rewrite Nat.mul_comm, Nat.div_mul; lia).
      replace ((2 * off + 1) / 2)%nat with off by (rewrite Nat.add_comm, Nat.mul_comm, Nat.div_add by lia; reflexivity).
      rewrite Nat2Z.inj_succ, Z.pow_succ_r by lia. ring. }
  specialize (G 32%nat e HL 0%nat (16 * fold_left (step_sum e) odds 0)). cbn beta in G.
  assert (A : forall is k, fold_left (step_sum e) is k = k + fold_left (step_sum e) is 0).
  { induction is as [|i is IH]; intros k; cbn [fold_left]; [lia|]. rewrite IH, (IH (step_sum e 0 i)). unfold step_sum. lia. }
  specialize (G ltac:(reflexivity)). fold evens in G. fold odds in G. change (256 ^ Z.of_nat 0) with 1 in G. lia.
Qed.

Theorem GeScalarMultBase_rep a : length a = 32%nat ->
  ext_rep 1 (GeScalarMultBase a) (ed_mul (hval 16 (map sel (recode (nibbles a) 0))) ed_B).
Proof.
  intros HL. unfold GeScalarMultBase. cbv zeta. fold odds. fold evens.
  assert (LN : length (nibbles a) = 64%nat) by (rewrite nibbles_length, HL; reflexivity).
  destruct (recode_ok (nibbles a) 0) as (R1 & _ & R3 & R4).
  { intros E. rewrite E in LN. discriminate LN. }
  { apply nibbles_nib. }
  { lia. }
  set (e := recode (nibbles a) 0) in *. rewrite LN in *. clearbody e.
  assert (He : forall i, (i < 64)%nat -> -128 <= nth i e 0 < 128).
  { intros i Hi. destruct (Nat.eq_dec i 63) as [->|N]; [change (64 - 1)%nat with 63%nat in R4; lia|]. specialize (R3 i ltac:(lia)). lia. }
  rewrite <- (hval64 e R1).
  assert (IO : forall i, In i odds -> (i < 64)%nat). { intros i Hi. apply in_map_iff in Hi. destruct Hi as (j & <- & Hj). apply in_seq in Hj. lia. }
  assert (IE : forall i, In i evens -> (i < 64)%nat). { intros i Hi. apply in_map_iff in Hi. destruct Hi as (j & <- & Hj). apply in_seq in Hj. lia. }
  pose proof (base_fold_rep e He odds ext_zero 0 IO ext_zero_rep) as H1.
  fold (step_sum e) in H1. change (fun k i => k + sel (nth i e 0) * 256 ^ Z.of_nat (i / 2)) with (step_sum e) in H1.
  set (h := fold_left (base_step e) odds ext_zero) in *. set (k := fold_left (step_sum e) odds 0) in *. clearbody h k.
  assert (D : forall k, ed_on (ed_mul k ed_B)) by (intros; apply ed_mul_on, ed_B_on).
  pose proof (comp_toproj_rep _ _ (ext_double_rep 1 _ _ ltac:(lia) (D k) H1)) as H2. rewrite <- ed_mul_dbl in H2 by exact ed_B_on.
  pose proof (comp_toproj_rep _ _ (proj_double_rep 1 _ _ ltac:(lia) (D _) H2)) as H3. rewrite <- ed_mul_dbl in H3 by exact ed_B_on.
  pose proof (comp_toproj_rep _ _ (proj_double_rep 1 _ _ ltac:(lia) (D _) H3)) as H4. rewrite <- ed_mul_dbl in H4 by exact ed_B_on.
  pose proof (comp_toext_rep _ _ (proj_double_rep 1 _ _ ltac:(lia) (D _) H4)) as H5. rewrite <- ed_mul_dbl in H5 by exact ed_B_on.
  replace (16 * k) with (2 * (2 * (2 * (2 * k)))) by lia.
  exact (base_fold_rep e He evens _ _ IE H5).
Qed.

Lemma map_sel_id e : (forall i, (i < length e)%nat -> -8 <= nth i e 0 <= 8) -> map sel e = e.
Proof.
  induction e as [|x e IH]; intros H; [reflexivity|]. cbn [map]. rewrite IH.
  - f_equal. specialize (H 0%nat ltac:(cbn; lia)). cbn [nth] in H. unfold sel.
    destruct (Z.leb_spec (-8) x), (Z.leb_spec x 8); cbn [andb]; lia.
  - intros i Hi. apply (H (S i)). cbn. lia.
Qed.

(** for scalars below 2^255 every digit is in the table *)
Theorem GeScalarMultBase_ok a : bytes_ok a -> length a = 32%nat -> le2z a < 2 ^ 255 ->
  ext_rep 1 (GeScalarMultBase a) (ed_mul (le2z a) ed_B).
Proof.
  intros HB HL Hlt. pose proof (GeScalarMultBase_rep a HL) as H.
  assert (LN : length (nibbles a) = 64%nat) by (rewrite nibbles_length, HL; reflexivity).
  destruct (recode_ok (nibbles a) 0) as (R1 & R2 & R3 & R4).
  { intros E. rewrite E in LN. discriminate LN. }
  { apply nibbles_nib. }
  { lia. }
  rewrite (nibbles_val a HB), Z.add_0_r in R2.
  rewrite map_sel_id in H; [rewrite R2 in H; exact H|].
  intros i Hi. rewrite R1 in Hi. rewrite LN in *. change (64 - 1)%nat with 63%nat in R4.
  destruct (Nat.eq_dec i 63) as [->|N]; [|specialize (R3 i ltac:(lia)); lia].
  split; [lia|]. clear H. set (e := recode (nibbles a) 0) in *. clearbody e.
  assert (E : e = firstn 63 e ++ [nth 63 e 0]).
  { clear -R1. do 64 (destruct e as [|? e]; [discriminate R1|]). destruct e; [reflexivity|discriminate R1]. }
  rewrite E, hval_app in R2. cbn [hval] in R2. rewrite firstn_length, R1 in R2. change (Nat.min 63 64) with 63%nat in R2.
  assert (Lo : - (16 ^ 63 - 1) <= hval 16 (firstn 63 e)).
  { assert (G : forall l, (forall j, (j < length l)%nat -> -8 <= nth j l 0) -> - (16 ^ Z.of_nat (length l) - 1) <= hval 16 l).
    { induction l as [|x l IH]; intros Hl; cbn [length hval]; [change (16 ^ Z.of_nat 0) with 1; lia|].
      rewrite Nat2Z.inj_succ, Z.pow_succ_r by lia. pose proof (Hl 0%nat ltac:(cbn; lia)) as H0. cbn [nth] in H0.
      assert (Z1 : - (16 ^ Z.of_nat (length l) - 1) <= hval 16 l) by (apply IH; intros i Hi'; apply (Hl (S i)); cbn; lia). lia. }
    specialize (G (firstn 63 e)). rewrite firstn_length, R1 in G. change (Nat.min 63 64) with 63%nat in G. apply G.
    intros j Hj. specialize (R3 j ltac:(lia)). rewrite E in R3. rewrite app_nth1 in R3 by (rewrite firstn_length, R1; exact Hj). lia. }
  change (16 ^ Z.of_nat 63) with (16 ^ 63) in R2. rewrite Z.mul_0_r, Z.add_0_r in R2.
  change (2 ^ 255) with (8 * 16 ^ 63) in Hlt.
  assert (P63 : 0 < 16 ^ 63) by reflexivity. set (W := 16 ^ 63) in *. clearbody W.
  set (d := nth 63 e 0) in *. clearbody d. clear -Hlt R2 Lo P63. nia.
Qed.

(** ** Sliding-window multiplication *)
Definition tab_rep (T : list cached) (P : ed_pt) : Prop :=
  forall k, (k < 8)%nat -> cached_rep (nth k T d0) (ed_mul (2 * Z.of_nat k + 1) P).
Lemma multiples_rep A2 P : ed_on P -> ext_rep 1 A2 (ed_mul 2 P) -> forall n c j, cached_rep c (ed_mul j P) ->
  forall k, (k <= n)%nat -> cached_rep (nth k (multiples n A2 c) d0) (ed_mul (2 * Z.of_nat k + j) P).
Proof.
  intros Ho H2. induction n as [|n IH]; intros c j Hc k Hk; cbn [multiples].
  - assert (k = 0%nat) as -> by lia. cbn [nth]. replace (2 * Z.of_nat 0 + j) with j by lia. exact Hc.
  - destruct k as [|k]; cbn [nth]; [replace (2 * Z.of_nat 0 + j) with j by lia; exact Hc|].
    replace (2 * Z.of_nat (S k) + j) with (2 * Z.of_nat k + (2 + j)) by lia. apply IH; [|lia].
    apply (ext_tocached_rep 1); [lia|]. apply comp_toext_rep. rewrite ed_mul_add by exact Ho.
    eapply geAdd_rep; [| | |exact H2|exact Hc]; [lia| |]; now apply ed_mul_on.
Qed.
Lemma odd_multiples_rep c A P : c <= 2 -> ed_on P -> ext_rep c A P -> tab_rep (odd_multiples A) P.
Proof.
  intros Hc Ho HA k Hk. unfold odd_multiples. apply multiples_rep; [exact Ho| | |lia].
  - change 2 with (2 * 1). rewrite ed_mul_dbl, ed_mul_1 by exact Ho. apply comp_toext_rep. exact (ext_double_rep c A P Hc Ho HA).
  - rewrite ed_mul_1 by exact Ho. exact (ext_tocached_rep c A P Hc HA).
Qed.

Lemma dig_pos d : dig d -> 0 < d -> (Z.to_nat (d / 2) < 8)%nat /\ 2 * Z.of_nat (Z.to_nat (d / 2)) + 1 = d.
Proof.
  intros [->|[H1 H2]] Hd; [lia|]. pose proof (Z.div_mod d 2 ltac:(lia)). assert (0 <= d / 2 < 8) by lia. lia.
Qed.
Lemma dig_opp d : dig d -> dig (- d).
Proof.
  intros [->|[H1 H2]]; [left; reflexivity|right]. split; [lia|]. pose proof (Z.div_mod d 2 ltac:(lia)).
  replace (- d) with (1 + (- (d / 2) - 1) * 2) by lia. now rewrite Z.mod_add by lia.
Qed.
Lemma digit_cached_rep T A P d t : ed_on P -> ed_on A -> tab_rep T A -> dig d -> comp_rep t P ->
  comp_rep (digit_cached T d t) (ed_add P (ed_mul d A)).
Proof.
  intros HP HA HT Hd Ht. unfold digit_cached. pose proof (comp_toext_rep _ _ Ht) as He.
  destruct (Z.ltb_spec 0 d) as [L|L].
  - destruct (dig_pos d Hd L) as [K1 K2]. rewrite <- K2 at 2.
    eapply geAdd_rep; [| | |exact He|exact (HT _ K1)]; [lia|exact HP|now apply ed_mul_on].
  - destruct (Z.ltb_spec d 0) as [L'|L'].
    + destruct (dig_pos (- d) (dig_opp d Hd) ltac:(lia)) as [K1 K2].
      replace d with (- - d) at 2 by lia. rewrite ed_mul_neg by exact HA. rewrite <- K2 at 2.
      eapply geSub_rep; [| | |exact He|exact (HT _ K1)]; [lia|exact HP|now apply ed_mul_on].
    + assert (d = 0) as -> by lia. change (ed_mul 0 A) with ed_zero.
      replace (ed_add P ed_zero) with P; [exact Ht|]. symmetry. exact (gadd_0_r _ _ _ _ _ ed_group P HP).
Qed.
Lemma digit_pre_rep P d t : ed_on P -> dig d -> comp_rep t P ->
  comp_rep (digit_pre bi d t) (ed_add P (ed_mul d ed_B)).
Proof.
  intros HP Hd Ht. unfold digit_pre. pose proof (comp_toext_rep _ _ Ht) as He. pose proof ed_B_on as HA.
  destruct (Z.ltb_spec 0 d) as [L|L].
  - destruct (dig_pos d Hd L) as [K1 K2]. rewrite <- K2 at 2.
    eapply geMixedAdd_rep; [| | |exact He|exact (bi_ok _ K1)]; [lia|exact HP|now apply ed_mul_on].
  - destruct (Z.ltb_spec d 0) as [L'|L'].
    + destruct (dig_pos (- d) (dig_opp d Hd) ltac:(lia)) as [K1 K2].
      replace d with (- - d) at 2 by lia. rewrite ed_mul_neg by exact HA. rewrite <- K2 at 2.
      eapply geMixedSub_rep; [| | |exact He|exact (bi_ok _ K1)]; [lia|exact HP|now apply ed_mul_on].
    + assert (d = 0) as -> by lia. change (ed_mul 0 ed_B) with ed_zero.
      replace (ed_add P ed_zero) with P; [exact Ht|]. symmetry. exact (gadd_0_r _ _ _ _ _ ed_group P HP).
Qed.

(** Horner's rule on pairs of digits, most significant first *)
Definition horner (ds : list (Z * Z)) (mn : Z * Z) : Z * Z :=
  fold_left (fun mn ab => (2 * fst mn + fst ab, 2 * snd mn + snd ab)) ds mn.
Definition comb (A B : ed_pt) (mn : Z * Z) : ed_pt := ed_add (ed_mul (fst mn) A) (ed_mul (snd mn) B).

Lemma comb_on A B mn : ed_on A -> ed_on B -> ed_on (comb A B mn).
Proof. intros HA HB. apply ed_add_on; now apply ed_mul_on. Qed.
Lemma comb_step A B mn ab : ed_on A -> ed_on B ->
  ed_add (ed_add (ed_add (comb A B mn) (comb A B mn)) (ed_mul (fst ab) A)) (ed_mul (snd ab) B) =
  comb A B (2 * fst mn + fst ab, 2 * snd mn + snd ab).
Proof.
  intros HA HB. unfold comb. cbn [fst snd]. rewrite !ed_mul_add, !ed_mul_dbl by assumption.
  assert (O : forall k, ed_on (ed_mul k A)) by (intros; now apply ed_mul_on).
  assert (O' : forall k, ed_on (ed_mul k B)) by (intros; now apply ed_mul_on).
  pose proof (g_assoc _ _ _ _ _ ed_group) as AS. pose proof (g_comm _ _ _ _ _ ed_group) as CO. pose proof ed_add_on as AO.
  set (a := ed_mul (fst mn) A) in *. set (b := ed_mul (snd mn) B) in *. set (c := ed_mul (fst ab) A) in *. set (d := ed_mul (snd ab) B) in *.
  assert (Ha : ed_on a) by apply O. assert (Hb : ed_on b) by apply O'. assert (Hc : ed_on c) by apply O. assert (Hd : ed_on d) by apply O'.
  clearbody a b c d. clear O O'.
  rewrite <- !AS by auto 6. f_equal. rewrite !AS by auto 6. f_equal. rewrite <- !AS by auto 6.
  rewrite (CO b (ed_add a (ed_add b c))) by auto 6. rewrite <- !AS by auto 6. f_equal.
  rewrite (CO c b) by auto. rewrite !AS by auto 6. rewrite (CO _ c) by auto 6. rewrite !AS by auto 6. reflexivity.
Qed.

Lemma horner_app a b mn : horner (a ++ b) mn = horner b (horner a mn).
Proof. apply fold_left_app. Qed.
Lemma horner_rev : forall la lb, length la = length lb ->
  horner (rev (combine la lb)) (0, 0) = (hval 2 la, hval 2 lb).
Proof.
  induction la as [|x la IH]; destruct lb as [|y lb]; intros H; try discriminate H; [reflexivity|].
  cbn [combine rev]. rewrite horner_app, IH by (cbn in H; lia). cbn [horner fold_left fst snd hval]. f_equal; lia.
Qed.
Lemma horner_skip0 l : horner (skip0 l) (0, 0) = horner l (0, 0).
Proof.
  induction l as [|[a b] l IH]; [reflexivity|]. cbn [skip0].
  destruct (Z.eqb_spec a 0) as [->|]; [|reflexivity]. destruct (Z.eqb_spec b 0) as [->|]; [|reflexivity].
  cbn [negb orb]. rewrite IH. reflexivity.
Qed.
Lemma skip0_in l x : In x (skip0 l) -> In x l.
Proof.
  induction l as [|[a b] l IH]; [exact (fun H => H)|]. cbn [skip0]. destruct (negb (a =? 0) || negb (b =? 0)); [exact (fun H => H)|].
  intros H. right. now apply IH.
Qed.
Lemma digits_val a b : bytes_ok a -> length a = 32%nat -> le2z a < 2 ^ 255 -> bytes_ok b -> length b = 32%nat -> le2z b < 2 ^ 255 ->
  horner (digits a b) (0, 0) = (le2z a, le2z b) /\ forall ab, In ab (digits a b) -> dig (fst ab) /\ dig (snd ab).
Proof.
  intros A1 A2 A3 B1 B2 B3. destruct (slide_ok a A1 A2 A3) as (SA1 & SA2 & SA3). destruct (slide_ok b B1 B2 B3) as (SB1 & SB2 & SB3).
  unfold digits. rewrite horner_skip0, horner_rev by congruence. split; [congruence|].
  intros [x y] H. apply skip0_in, in_rev in H. cbn [fst snd].
  pose proof (in_combine_l _ _ _ _ H) as Hx. pose proof (in_combine_r _ _ _ _ H) as Hy.
  apply (In_nth _ _ 0) in Hx, Hy. destruct Hx as (i & _ & <-), Hy as (j & _ & <-). split; [apply SA3|apply SB3].
Qed.

(** the loop, for any digit step that adds the digit's multiple *)
Lemma horner_loop (A B : ed_pt) (fa fb : Z -> comp -> comp) : ed_on A -> ed_on B ->
  (forall P d t, ed_on P -> dig d -> comp_rep t P -> comp_rep (fa d t) (ed_add P (ed_mul d A))) ->
  (forall P d t, ed_on P -> dig d -> comp_rep t P -> comp_rep (fb d t) (ed_add P (ed_mul d B))) ->
  forall ds r mn, (forall ab, In ab ds -> dig (fst ab) /\ dig (snd ab)) -> proj_rep 1 r (comb A B mn) ->
  proj_rep 1 (fold_left (fun r ab => comp_toproj (fb (snd ab) (fa (fst ab) (proj_double r)))) ds r) (comb A B (horner ds mn)).
Proof.
  intros HA HB Ha Hb. induction ds as [|ab ds IH]; intros r mn Hd Hr; cbn [fold_left horner]; [exact Hr|].
  apply IH; [intros; apply Hd; now right|]. destruct (Hd ab ltac:(now left)) as [D1 D2].
  rewrite <- comb_step by assumption. apply comp_toproj_rep.
  pose proof (comb_on A B mn HA HB) as O. pose proof (proj_double_rep 1 _ _ ltac:(lia) O Hr) as H1.
  apply Hb; [|exact D2|].
  - apply ed_add_on; [now apply ed_add_on|now apply ed_mul_on].
  - apply Ha; [now apply ed_add_on|exact D1|exact H1].
Qed.

Lemma comb_0 A B : ed_on A -> ed_on B -> comb A B (0, 0) = ed_zero.
Proof. intros HA HB. unfold comb. cbn [fst snd]. change (ed_mul 0 A) with ed_zero. change (ed_mul 0 B) with ed_zero.
  apply (gadd_0_r _ _ _ _ _ ed_group). exact (g_zero _ _ _ _ _ ed_group). Qed.

Theorem GeDoubleScalarMultVartime_ok c a A PA b : c <= 2 -> ed_on PA -> ext_rep c A PA ->
  bytes_ok a -> length a = 32%nat -> le2z a < 2 ^ 255 -> bytes_ok b -> length b = 32%nat -> le2z b < 2 ^ 255 ->
  proj_rep 1 (GeDoubleScalarMultVartime a A b) (ed_add (ed_mul (le2z a) PA) (ed_mul (le2z b) ed_B)).
Proof.
  intros Hc HP HA A1 A2 A3 B1 B2 B3. destruct (digits_val a b A1 A2 A3 B1 B2 B3) as [V D].
  change (ed_add (ed_mul (le2z a) PA) (ed_mul (le2z b) ed_B)) with (comb PA ed_B (le2z a, le2z b)). rewrite <- V.
  unfold GeDoubleScalarMultVartime. cbv zeta.
  apply (horner_loop PA ed_B (digit_cached (odd_multiples A)) (digit_pre bi) HP ed_B_on).
  - intros P d t H1 H2 H3. apply digit_cached_rep; try assumption. now apply (odd_multiples_rep c).
  - intros P d t H1 H2 H3. now apply digit_pre_rep.
  - exact D.
  - rewrite comb_0 by (assumption || exact ed_B_on). exact proj_zero_rep.
Qed.

Theorem GePointAddVarTime_ok c a A PA b BB PB : c <= 2 -> ed_on PA -> ext_rep c A PA -> ed_on PB -> ext_rep c BB PB ->
  bytes_ok a -> length a = 32%nat -> le2z a < 2 ^ 255 -> bytes_ok b -> length b = 32%nat -> le2z b < 2 ^ 255 ->
  proj_rep 1 (GePointAddVarTime a A b BB) (ed_add (ed_mul (le2z a) PA) (ed_mul (le2z b) PB)).
Proof.
  intros Hc HP HA HQ HB A1 A2 A3 B1 B2 B3. destruct (digits_val a b A1 A2 A3 B1 B2 B3) as [V D].
  change (ed_add (ed_mul (le2z a) PA) (ed_mul (le2z b) PB)) with (comb PA PB (le2z a, le2z b)). rewrite <- V.
  unfold GePointAddVarTime. cbv zeta.
  apply (horner_loop PA PB (digit_cached (odd_multiples A)) (digit_cached (odd_multiples BB)) HP HQ).
  - intros P d t H1 H2 H3. apply digit_cached_rep; try assumption. now apply (odd_multiples_rep c).
  - intros P d t H1 H2 H3. apply digit_cached_rep; try assumption. now apply (odd_multiples_rep c).
  - exact D.
  - rewrite comb_0 by assumption. exact proj_zero_rep.
Qed.
