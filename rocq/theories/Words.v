(** 32- and 64-bit machine words as integers, and cutting a message into
    blocks.  Shared by the models and specifications of the hash functions. *)
From Coq Require Import ZArith List Lia.
From Verif Require Import Base.
Import ListNotations.
Open Scope Z_scope.

(** Go's uint32 and uint64 values: the integers below 2^32, 2^64; every
    operation that can overflow is followed by the reduction. *)
Definition u32 (x : Z) : Z := x mod 2 ^ 32.
Definition u64 (x : Z) : Z := x mod 2 ^ 64.
Definition u8 (x : Z) : Z := x mod 2 ^ 8.
Definition w32_ok (x : Z) : Prop := 0 <= x < 2 ^ 32.
Definition w64_ok (x : Z) : Prop := 0 <= x < 2 ^ 64.

(** Go's ^x on uint32 and uint64. *)
Definition not32 (x : Z) : Z := Z.lxor x (2 ^ 32 - 1).
Definition not64 (x : Z) : Z := Z.lxor x (2 ^ 64 - 1).

(** The first n blocks of size [bs] of a byte string. *)
Fixpoint blocks (bs n : nat) (l : bytes) : list bytes :=
  match n with
  | O => []
  | S n' => firstn bs l :: blocks bs n' (skipn bs l)
  end.

Definition full_blocks (bs : nat) (l : bytes) : list bytes := blocks bs (length l / bs) l.
Definition rest (bs : nat) (l : bytes) : bytes := skipn (bs * (length l / bs)) l.

Lemma skipn_add {A} (a : nat) : forall b (l : list A), skipn b (skipn a l) = skipn (a + b) l.
Proof.
  induction a as [|a IH]; intros b l; [reflexivity|].
  destruct l; [destruct b; reflexivity|]. simpl. apply IH.
Qed.

Section Blk.
Variable bs : nat.
Hypothesis Hbs : (0 < bs)%nat.

Lemma blocks_app n : forall a b, (bs * n <= length a)%nat -> blocks bs n (a ++ b) = blocks bs n a.
Proof.
  induction n as [|n IH]; intros a b H; simpl; [reflexivity|].
  rewrite firstn_app, skipn_app.
  replace (bs - length a)%nat with 0%nat by lia. simpl.
  rewrite app_nil_r, IH; [reflexivity|]. rewrite skipn_length. lia.
Qed.

Lemma blocks_add n : forall m a, blocks bs (n + m) a = blocks bs n a ++ blocks bs m (skipn (bs * n) a).
Proof.
  induction n as [|n IH]; intros m a.
  - rewrite Nat.mul_0_r. reflexivity.
  - change (S n + m)%nat with (S (n + m)). cbn [blocks app].
    rewrite IH, skipn_add. do 4 f_equal. lia.
Qed.

Lemma rest_length l : length (rest bs l) = (length l mod bs)%nat.
Proof.
  unfold rest. rewrite skipn_length.
  pose proof (Nat.div_mod (length l) bs). lia.
Qed.

Lemma rest_lt l : (length (rest bs l) < bs)%nat.
Proof. rewrite rest_length. apply Nat.mod_upper_bound. lia. Qed.

(** Feeding [a] and then [b] gives the blocks of [a ++ b]. *)
Lemma full_blocks_app a b :
  full_blocks bs (a ++ b) = full_blocks bs a ++ full_blocks bs (rest bs a ++ b)
  /\ rest bs (a ++ b) = rest bs (rest bs a ++ b).
Proof.
  assert (Hd : (bs * (length a / bs) <= length a)%nat) by (apply Nat.mul_div_le; lia).
  assert (Hsk : skipn (bs * (length a / bs)) (a ++ b) = rest bs a ++ b).
  { rewrite skipn_app. unfold rest. f_equal.
    replace (bs * (length a / bs) - length a)%nat with 0%nat by lia. reflexivity. }
  assert (HL : (length (a ++ b) / bs = length a / bs + length (rest bs a ++ b) / bs)%nat).
  { rewrite !app_length, rest_length.
    rewrite (Nat.div_mod (length a) bs) at 1 by lia.
    replace (bs * (length a / bs) + length a mod bs + length b)%nat
      with ((length a mod bs + length b) + (length a / bs) * bs)%nat by lia.
    rewrite Nat.div_add by lia. lia. }
  split.
  - unfold full_blocks at 1. rewrite HL, blocks_add, Hsk, blocks_app by exact Hd. reflexivity.
  - unfold rest at 1. rewrite HL, Nat.mul_add_distr_l, <- skipn_add, Hsk. reflexivity.
Qed.

Lemma full_blocks_short l : (length l < bs)%nat -> full_blocks bs l = [] /\ rest bs l = l.
Proof.
  intros H. unfold full_blocks, rest. rewrite Nat.div_small by exact H.
  rewrite Nat.mul_0_r. split; reflexivity.
Qed.

Lemma full_blocks_cons b l : length b = bs ->
  full_blocks bs (b ++ l) = b :: full_blocks bs l /\ rest bs (b ++ l) = rest bs l.
Proof.
  intros H. destruct (full_blocks_app b l) as [E1 E2].
  assert (Hf : full_blocks bs b = [b] /\ rest bs b = []).
  { unfold full_blocks, rest. rewrite H, Nat.div_same by lia. rewrite Nat.mul_1_r. simpl.
    rewrite <- H, firstn_all, skipn_all. split; reflexivity. }
  destruct Hf as [F1 F2]. rewrite E1, E2, F1, F2. split; reflexivity.
Qed.

Lemma full_blocks_exact l : (length l mod bs = 0)%nat -> rest bs l = [].
Proof. intros H. apply length_zero_iff_nil. rewrite rest_length. exact H. Qed.

Lemma full_blocks_length l : Forall (fun b => length b = bs) (full_blocks bs l).
Proof.
  assert (H : (bs * (length l / bs) <= length l)%nat) by (apply Nat.mul_div_le; lia).
  unfold full_blocks. revert H. generalize (length l / bs)%nat as n. intros n. revert l.
  induction n as [|n IH]; intros l H; simpl; constructor.
  - rewrite firstn_length. lia.
  - apply IH. rewrite skipn_length. lia.
Qed.

Lemma full_blocks_ok l : bytes_ok l -> Forall bytes_ok (full_blocks bs l).
Proof.
  unfold full_blocks. generalize (length l / bs)%nat as n. intros n. revert l.
  induction n as [|n IH]; intros l H; simpl; constructor.
  - now apply bytes_ok_firstn.
  - apply IH. now apply bytes_ok_skipn.
Qed.

Lemma concat_full_blocks l : concat (full_blocks bs l) ++ rest bs l = l.
Proof.
  unfold full_blocks, rest.
  assert (H : forall n l, concat (blocks bs n l) ++ skipn (bs * n) l = l).
  { induction n as [|n IH]; intros m.
    - rewrite Nat.mul_0_r. reflexivity.
    - cbn [blocks concat]. rewrite <- app_assoc.
      replace (skipn (bs * S n) m) with (skipn (bs * n) (skipn bs m)).
      + rewrite IH. apply firstn_skipn.
      + rewrite skipn_add. f_equal. lia. }
  apply H.
Qed.
End Blk.

(** ** Word facts *)
Lemma u32_ok x : w32_ok (u32 x).
Proof. apply Z.mod_pos_bound. reflexivity. Qed.
Lemma u64_ok x : w64_ok (u64 x).
Proof. apply Z.mod_pos_bound. reflexivity. Qed.
Lemma u32_small x : w32_ok x -> u32 x = x.
Proof. apply Z.mod_small. Qed.
Lemma u64_small x : w64_ok x -> u64 x = x.
Proof. apply Z.mod_small. Qed.

Lemma bits_bound x n : 0 <= n -> 0 <= x ->
  (forall i, n <= i -> Z.testbit x i = false) -> x < 2 ^ n.
Proof.
  intros Hn Hx H. destruct (Z.eq_dec x 0) as [->|Hz].
  { apply Z.pow_pos_nonneg; lia. }
  apply Z.log2_lt_pow2; [lia|].
  destruct (Z.lt_ge_cases (Z.log2 x) n) as [E|E]; [exact E|].
  specialize (H (Z.log2 x) E). rewrite Z.bit_log2 in H by lia. discriminate.
Qed.

Lemma testbit_high x n i : 0 <= x < 2 ^ n -> 0 <= n <= i -> Z.testbit x i = false.
Proof.
  intros H Hi. rewrite <- (Z.mod_small x (2 ^ n)) by exact H.
  apply Z.mod_pow2_bits_high. lia.
Qed.

Section Bit.
Variable n : Z.
Hypothesis Hn : 0 <= n.
Lemma lxor_bound x y : 0 <= x < 2 ^ n -> 0 <= y < 2 ^ n -> 0 <= Z.lxor x y < 2 ^ n.
Proof.
  intros Hx Hy. assert (H0 : 0 <= Z.lxor x y) by (apply Z.lxor_nonneg; lia).
  split; [exact H0|]. apply bits_bound; [exact Hn|exact H0|].
  intros i Hi. rewrite Z.lxor_spec, (testbit_high x n), (testbit_high y n) by lia. reflexivity.
Qed.
Lemma lor_bound x y : 0 <= x < 2 ^ n -> 0 <= y < 2 ^ n -> 0 <= Z.lor x y < 2 ^ n.
Proof.
  intros Hx Hy. assert (H0 : 0 <= Z.lor x y) by (apply Z.lor_nonneg; lia).
  split; [exact H0|]. apply bits_bound; [exact Hn|exact H0|].
  intros i Hi. rewrite Z.lor_spec, (testbit_high x n), (testbit_high y n) by lia. reflexivity.
Qed.
Lemma land_bound x y : 0 <= x -> 0 <= y < 2 ^ n -> 0 <= Z.land x y < 2 ^ n.
Proof.
  intros Hx Hy. assert (H0 : 0 <= Z.land x y) by (apply Z.land_nonneg; lia).
  split; [exact H0|]. apply bits_bound; [exact Hn|exact H0|].
  intros i Hi. rewrite Z.land_spec, (testbit_high y n) by lia. apply Bool.andb_false_r.
Qed.
End Bit.

(** A left shift reduced to the word and a right shift do not overlap when the
    amounts add up to the word size. *)
Lemma lor_shift_add n x k : 0 <= k <= n -> 0 <= x < 2 ^ n ->
  Z.lor ((Z.shiftl x k) mod 2 ^ n) (Z.shiftr x (n - k)) = (x * 2 ^ k) mod 2 ^ n + x / 2 ^ (n - k).
Proof.
  intros Hk Hx. rewrite Z.shiftl_mul_pow2, Z.shiftr_div_pow2 by lia.
  set (a := (x * 2 ^ k) mod 2 ^ n). set (b := x / 2 ^ (n - k)).
  assert (Hp : 0 < 2 ^ n) by (apply Z.pow_pos_nonneg; lia).
  assert (Hb : 0 <= b < 2 ^ k).
  { unfold b. split; [apply Z.div_pos; [lia|apply Z.pow_pos_nonneg; lia]|].
    apply Z.div_lt_upper_bound; [apply Z.pow_pos_nonneg; lia|].
    rewrite <- Z.pow_add_r by lia. replace (n - k + k) with n by lia. lia. }
  assert (Hl : Z.land a b = 0).
  { apply Z.bits_inj'. intros i Hi. rewrite Z.land_spec, Z.bits_0.
    destruct (Z.lt_ge_cases i k) as [E|E].
    - unfold a. assert (Hin : i < n \/ n <= i) by lia. destruct Hin as [Hin|Hin].
      + rewrite Z.mod_pow2_bits_low by lia. rewrite Z.mul_pow2_bits_low by lia. reflexivity.
      + lia.
    - rewrite (testbit_high b k) by lia. apply Bool.andb_false_r. }
  rewrite Z.add_nocarry_lxor by exact Hl.
  apply Z.bits_inj'. intros i Hi. rewrite Z.lor_spec, Z.lxor_spec.
  pose proof (f_equal (fun z => Z.testbit z i) Hl) as Hbit. cbv beta in Hbit.
  rewrite Z.land_spec, Z.bits_0 in Hbit.
  destruct (Z.testbit a i), (Z.testbit b i); simpl in *; congruence.
Qed.

Lemma fold_left_ext_in {A B} (f g : A -> B -> A) l : (forall a b, In b l -> f a b = g a b) ->
  forall a, fold_left f l a = fold_left g l a.
Proof.
  induction l as [|b l IH]; intros H a; [reflexivity|]. simpl.
  rewrite (H a b) by (left; reflexivity). apply IH. intros a' b' Hb. apply H. right. exact Hb.
Qed.

(** Eight working registers. *)
Inductive regs : Type := Regs (a b c d e f g h : Z).
Definition regs_list (r : regs) : list Z :=
  match r with Regs a b c d e f g h => [a; b; c; d; e; f; g; h] end.
