(** The SM3 model computes the hash of the standard, streaming included. *)
From Coq Require Import ZArith List Lia.
From Verif Require Import Base Words SpecSM3 ModelSM3.
Import ListNotations.
Open Scope Z_scope.

Local Notation S_rol := SM3Spec.rol.

Lemma xor32 x y : w32_ok x -> w32_ok y -> w32_ok (Z.lxor x y).
Proof. unfold w32_ok. apply lxor_bound. lia. Qed.
Lemma or32 x y : w32_ok x -> w32_ok y -> w32_ok (Z.lor x y).
Proof. unfold w32_ok. apply lor_bound. lia. Qed.
Lemma and32 x y : w32_ok x -> w32_ok y -> w32_ok (Z.land x y).
Proof. unfold w32_ok. intros. apply land_bound; lia. Qed.

Lemma rot_ok x i : w32_ok x -> w32_ok (leftRotate x i).
Proof.
  intros H. unfold leftRotate. apply or32; [apply u32_ok|].
  pose proof (Z.mod_pos_bound i 32 ltac:(lia)) as Hi. unfold w32_ok in *.
  rewrite Z.shiftr_div_pow2 by lia.
  assert (0 < 2 ^ (32 - i mod 32)) by (apply Z.pow_pos_nonneg; lia).
  split; [apply Z.div_pos; lia|]. apply Z.div_lt_upper_bound; nia.
Qed.

Lemma rot_eq x i : w32_ok x -> leftRotate x i = S_rol x i.
Proof.
  intros H. pose proof (Z.mod_pos_bound i 32 ltac:(lia)) as Hi.
  unfold leftRotate, SM3Spec.rol, u32. rewrite lor_shift_add by (unfold w32_ok in H; lia). reflexivity.
Qed.

Lemma not32_eq x : w32_ok x -> not32 x = 2 ^ 32 - 1 - x.
Proof.
  intros H. unfold not32.
  assert (E : Z.land x (Z.lxor x (2 ^ 32 - 1)) = 0).
  { apply Z.bits_inj'. intros i Hi. rewrite Z.land_spec, Z.lxor_spec, Z.bits_0.
    destruct (Z.lt_ge_cases i 32) as [L|L].
    - replace (2 ^ 32 - 1) with (Z.ones 32) by reflexivity. rewrite Z.ones_spec_low by lia.
      destruct (Z.testbit x i); reflexivity.
    - rewrite (testbit_high x 32) by (unfold w32_ok in H; lia). reflexivity. }
  pose proof (Z.add_nocarry_lxor _ _ E) as A.
  rewrite <- Z.lxor_assoc, Z.lxor_nilpotent, Z.lxor_0_l in A. lia.
Qed.
Lemma not32_ok x : w32_ok x -> w32_ok (not32 x).
Proof. intros H. rewrite not32_eq by exact H. unfold w32_ok in *. lia. Qed.

Lemma p0_ok x : w32_ok x -> w32_ok (p0 x).
Proof. intros H. unfold p0. auto using xor32, rot_ok. Qed.
Lemma p1_ok x : w32_ok x -> w32_ok (p1 x).
Proof. intros H. unfold p1. auto using xor32, rot_ok. Qed.
Lemma p0_eq x : w32_ok x -> p0 x = SM3Spec.P0 x.
Proof. intros H. unfold p0, SM3Spec.P0. rewrite !rot_eq by exact H. reflexivity. Qed.
Lemma p1_eq x : w32_ok x -> p1 x = SM3Spec.P1 x.
Proof. intros H. unfold p1, SM3Spec.P1. rewrite !rot_eq by exact H. reflexivity. Qed.

(** ** Message expansion *)
Lemma nth_ok l i : Forall w32_ok l -> w32_ok (nth i l 0).
Proof.
  intros H. destruct (nth_in_or_default i l 0) as [I|E].
  - exact (proj1 (Forall_forall _ _) H _ I).
  - rewrite E. unfold w32_ok. lia.
Qed.

Lemma be4_ok b : bytes_ok b -> (length b <= 4)%nat -> w32_ok (be2z b).
Proof.
  intros Hb Hl. pose proof (be2z_bound b Hb). unfold w32_ok.
  assert (256 ^ Z.of_nat (length b) <= 256 ^ 4) by (apply Z.pow_le_mono_r; lia).
  change (256 ^ 4) with (2 ^ 32) in *. lia.
Qed.

Lemma w_init_eq msg : w_init msg = SM3Spec.W0 msg.
Proof.
  unfold w_init, SM3Spec.W0. cbn [seq map blocks Nat.mul Nat.add]. rewrite !skipn_add. reflexivity.
Qed.
Lemma w_init_app a b : length a = 64%nat -> w_init (a ++ b) = w_init a.
Proof.
  intros H. rewrite !w_init_eq. unfold SM3Spec.W0. rewrite blocks_app by lia. reflexivity.
Qed.
Lemma w_init_ok msg : bytes_ok msg -> Forall w32_ok (w_init msg).
Proof.
  intros H. unfold w_init. apply Forall_forall. intros x Hx. apply in_map_iff in Hx.
  destruct Hx as [i [<- _]]. apply be4_ok.
  - apply bytes_ok_firstn. apply bytes_ok_skipn. exact H.
  - rewrite firstn_length. lia.
Qed.

Lemma w_next_ok w i : Forall w32_ok w -> Forall w32_ok (w_next w i).
Proof.
  intros H. unfold w_next. apply Forall_app. split; [exact H|]. constructor; [|constructor].
  repeat (apply xor32 || apply p1_ok || apply rot_ok || apply nth_ok); exact H.
Qed.
Lemma w_next_eq w i : Forall w32_ok w -> w_next w i = w ++ [SM3Spec.next_word w i].
Proof.
  intros H. unfold w_next, SM3Spec.next_word.
  rewrite p1_eq by (repeat (apply xor32 || apply rot_ok || apply nth_ok); exact H).
  rewrite !rot_eq by (apply nth_ok; exact H). reflexivity.
Qed.
Lemma w_fold l : forall w, Forall w32_ok w ->
  fold_left w_next l w = fold_left (fun W j => W ++ [SM3Spec.next_word W j]) l w
  /\ Forall w32_ok (fold_left w_next l w).
Proof.
  induction l as [|j l IH]; intros w H; [split; [reflexivity|exact H]|].
  cbn [fold_left]. destruct (IH (w_next w j) (w_next_ok _ _ H)) as [E O]. split; [|exact O].
  rewrite E, w_next_eq by exact H. reflexivity.
Qed.
Lemma w_full_eq msg : bytes_ok msg -> w_full msg = SM3Spec.Wd msg /\ Forall w32_ok (w_full msg).
Proof.
  intros H. unfold w_full, SM3Spec.Wd. rewrite <- w_init_eq. apply w_fold. apply w_init_ok, H.
Qed.

Lemma nth_w1 w i : (i < 64)%nat -> nth i (w1_full w) 0 = Z.lxor (nth i w 0) (nth (i + 4) w 0).
Proof.
  intros H. unfold w1_full.
  rewrite (nth_indep _ 0 (Z.lxor (nth 0 w 0) (nth (0 + 4) w 0))) by (rewrite map_length, seq_length; exact H).
  rewrite (map_nth (fun i => Z.lxor (nth i w 0) (nth (i + 4) w 0))).
  rewrite seq_nth by exact H. reflexivity.
Qed.

(** ** Rounds *)
Definition regs_ok (r : regs) : Prop := Forall w32_ok (regs_list r).

Lemma u32_u32 x y : u32 (u32 x + y) = u32 (x + y).
Proof. unfold u32. apply Zplus_mod_idemp_l. Qed.

Lemma round_eq msg r i : bytes_ok msg -> regs_ok r -> (i < 64)%nat ->
  let w := w_full msg in
  (if Nat.ltb i 16 then sm3_round 0x79cc4519 ff0 gg0 w (w1_full w) r i
   else sm3_round 0x7a879d8a ff1 gg1 w (w1_full w) r i) = SM3Spec.CF_round msg r i
  /\ regs_ok (SM3Spec.CF_round msg r i).
Proof.
  intros Hm Hr Hi w. unfold w. clear w.
  destruct (w_full_eq msg Hm) as [EW OW].
  destruct r as [A B C D E F G H].
  unfold regs_ok in Hr. cbn [regs_list] in Hr.
  repeat match goal with X : Forall _ (_ :: _) |- _ => inversion X; clear X; subst end.
  match goal with X : Forall w32_ok [] |- _ => clear X end.
  assert (HT1 : w32_ok 0x79cc4519) by (unfold w32_ok; lia).
  assert (HT2 : w32_ok 0x7a879d8a) by (unfold w32_ok; lia).
  unfold SM3Spec.CF_round, sm3_round, SM3Spec.add, SM3Spec.T, SM3Spec.FF, SM3Spec.GG, SM3Spec.Wd'.
  cbv zeta. rewrite !nth_w1 by exact Hi. rewrite <- !EW.
  destruct (Nat.ltb i 16);
    (split;
     [ unfold ff0, gg0, ff1, gg1;
       rewrite ?not32_eq by assumption;
       rewrite !(rot_eq A), !(rot_eq B), !(rot_eq F) by assumption;
       rewrite ?(rot_eq 0x79cc4519), ?(rot_eq 0x7a879d8a) by assumption;
       rewrite (rot_eq (u32 _)) by apply u32_ok; rewrite p0_eq by apply u32_ok;
       reflexivity
     | unfold regs_ok; cbn [regs_list];
       repeat (apply Forall_cons); try assumption; try apply Forall_nil;
       rewrite <- ?rot_eq by assumption; try (apply rot_ok; assumption);
       try apply u32_ok; rewrite <- p0_eq by apply u32_ok; apply p0_ok, u32_ok ]).
Qed.

Lemma rounds_eq msg l : bytes_ok msg -> Forall (fun i => (i < 64)%nat) l -> forall r, regs_ok r ->
  regs_ok (fold_left (SM3Spec.CF_round msg) l r) /\
  fold_left (fun r i => if Nat.ltb i 16
     then sm3_round 0x79cc4519 ff0 gg0 (w_full msg) (w1_full (w_full msg)) r i
     else sm3_round 0x7a879d8a ff1 gg1 (w_full msg) (w1_full (w_full msg)) r i) l r
  = fold_left (SM3Spec.CF_round msg) l r.
Proof.
  intros Hm. induction l as [|i l IH]; intros Hl r Hr; [split; [exact Hr|reflexivity]|].
  inversion Hl; subst. cbn [fold_left].
  destruct (round_eq msg r i Hm Hr H1) as [E O]. cbv zeta in E. rewrite E. apply IH; assumption.
Qed.

Lemma seq_lt a n m : (a + n <= m)%nat -> Forall (fun i => (i < m)%nat) (seq a n).
Proof. intros H. apply Forall_forall. intros i Hi. apply in_seq in Hi. lia. Qed.

Lemma block_eq d msg : bytes_ok msg -> regs_ok d ->
  sm3_block d msg = SM3Spec.CF d msg /\ regs_ok (SM3Spec.CF d msg).
Proof.
  intros Hm Hd. unfold sm3_block, SM3Spec.CF. cbv zeta.
  destruct (rounds_eq msg (seq 0 64) Hm (seq_lt 0 64 64 (le_n _)) d Hd) as [O E].
  change (seq 0 64) with (seq 0 16 ++ seq 16 48) in E at 1. rewrite fold_left_app in E.
  assert (E' : fold_left (sm3_round 0x7a879d8a ff1 gg1 (w_full msg) (w1_full (w_full msg))) (seq 16 48)
     (fold_left (sm3_round 0x79cc4519 ff0 gg0 (w_full msg) (w1_full (w_full msg))) (seq 0 16) d)
     = fold_left (SM3Spec.CF_round msg) (seq 0 64) d).
  { rewrite <- E.
    rewrite (fold_left_ext_in (sm3_round 0x79cc4519 ff0 gg0 (w_full msg) (w1_full (w_full msg)))
       (fun r i => if Nat.ltb i 16
        then sm3_round 0x79cc4519 ff0 gg0 (w_full msg) (w1_full (w_full msg)) r i
        else sm3_round 0x7a879d8a ff1 gg1 (w_full msg) (w1_full (w_full msg)) r i)).
    2:{ intros r i Hi. apply in_seq in Hi. assert (L : Nat.ltb i 16 = true) by (apply Nat.ltb_lt; lia).
        rewrite L. reflexivity. }
    apply fold_left_ext_in. intros r i Hi. apply in_seq in Hi.
    assert (L : Nat.ltb i 16 = false) by (apply Nat.ltb_ge; lia). rewrite L. reflexivity. }
  rewrite E'. clear E E'. revert O. generalize (fold_left (SM3Spec.CF_round msg) (seq 0 64) d). intros r O.
  destruct d as [a b c d e f g h], r as [A B C D E F G H]. unfold SM3Spec.xor8. split.
  - rewrite (Z.lxor_comm a), (Z.lxor_comm b), (Z.lxor_comm c), (Z.lxor_comm d),
      (Z.lxor_comm e), (Z.lxor_comm f), (Z.lxor_comm g), (Z.lxor_comm h). reflexivity.
  - unfold regs_ok in *. cbn [regs_list] in *.
    repeat match goal with X : Forall _ (_ :: _) |- _ => inversion X; clear X; subst end.
    repeat (apply Forall_cons); try apply Forall_nil; apply xor32; assumption.
Qed.

Lemma block_app d a b : length a = 64%nat -> sm3_block d (a ++ b) = sm3_block d a.
Proof. intros H. unfold sm3_block, w_full. rewrite w_init_app by exact H. reflexivity. Qed.

(** The update loop folds the compression function over the full blocks. *)
Lemma update_eq fuel : forall d msg, (length msg <= fuel)%nat -> bytes_ok msg -> regs_ok d ->
  sm3_update fuel d msg = fold_left SM3Spec.CF (full_blocks 64 msg) d
  /\ regs_ok (sm3_update fuel d msg).
Proof.
  induction fuel as [|f IH]; intros d msg HL Hm Hd.
  - destruct msg; [|simpl in HL; lia]. split; [reflexivity|exact Hd].
  - cbn [sm3_update]. destruct (Nat.leb 64 (length msg)) eqn:E.
    + apply Nat.leb_le in E.
      assert (Hs : length (firstn 64 msg) = 64%nat) by (rewrite firstn_length; lia).
      assert (Hb : bytes_ok (firstn 64 msg)) by now apply bytes_ok_firstn.
      destruct (block_eq d (firstn 64 msg) Hb Hd) as [B O].
      assert (B' : sm3_block d msg = SM3Spec.CF d (firstn 64 msg)).
      { rewrite <- B. rewrite <- (firstn_skipn 64 msg) at 1. apply block_app. exact Hs. }
      rewrite B'. destruct (IH (SM3Spec.CF d (firstn 64 msg)) (skipn 64 msg)) as [I1 I2].
      * rewrite skipn_length. lia.
      * now apply bytes_ok_skipn.
      * exact O.
      * split; [|exact I2]. rewrite I1.
        pose proof (proj1 (full_blocks_cons 64 ltac:(lia) _ (skipn 64 msg) Hs)) as C.
        rewrite firstn_skipn in C. rewrite C. reflexivity.
    + apply Nat.leb_gt in E. rewrite (proj1 (full_blocks_short 64 msg E)).
      split; [reflexivity|exact Hd].
Qed.

(** ** Streaming *)
Lemma IV_ok : regs_ok (s_dig sm3_new).
Proof. unfold regs_ok. cbn. repeat (apply Forall_cons); try apply Forall_nil; unfold w32_ok; lia. Qed.

(** The state after writing the bytes [m]. *)
Definition holds (s : sm3) (m : bytes) : Prop :=
  s_dig s = fold_left SM3Spec.CF (full_blocks 64 m) SM3Spec.IV /\
  s_len s = u64 (8 * Z.of_nat (length m)) /\
  s_msg s = rest 64 m /\ regs_ok (s_dig s).

Lemma holds_new : holds sm3_new [].
Proof. repeat split; try apply IV_ok. Qed.

Lemma holds_write s m p : bytes_ok m -> bytes_ok p -> holds s m -> holds (sm3_write s p) (m ++ p).
Proof.
  intros Hm Hp (HD & HL & HM & HO). unfold sm3_write, holds.
  destruct (full_blocks_app 64 ltac:(lia) m p) as [F R].
  cbn [s_dig s_len s_msg]. rewrite HM.
  assert (Hr : bytes_ok (rest 64 m ++ p)).
  { apply bytes_ok_app; [unfold rest; now apply bytes_ok_skipn|exact Hp]. }
  destruct (update_eq (length (rest 64 m ++ p)) (s_dig s) _ (le_n _) Hr HO) as [U O].
  repeat split.
  - rewrite U, F, fold_left_app, HD. reflexivity.
  - rewrite HL, app_length. unfold u64. rewrite <- Zplus_mod. f_equal. lia.
  - rewrite R. unfold rest at 2. rewrite (Nat.mul_comm (_ / 64)). reflexivity.
  - exact O.
Qed.

Lemma holds_writes ps : forall s m, bytes_ok m -> Forall bytes_ok ps -> holds s m ->
  holds (fold_left sm3_write ps s) (m ++ concat ps).
Proof.
  induction ps as [|p ps IH]; intros s m Hm Hps H.
  - simpl. rewrite app_nil_r. exact H.
  - inversion Hps; subst. cbn [fold_left concat]. rewrite app_assoc. apply IH; auto using bytes_ok_app.
    apply holds_write; assumption.
Qed.

(** ** Padding *)
Lemma pad_zeros_spec fuel : forall msg k, (k < fuel)%nat -> ((length msg + k) mod 64 = 56)%nat ->
  (forall j, (j < k)%nat -> ((length msg + j) mod 64 <> 56)%nat) ->
  pad_zeros fuel msg = msg ++ repeat 0 k.
Proof.
  induction fuel as [|f IH]; intros msg k Hk H56 Hmin; [lia|]. cbn [pad_zeros].
  destruct (Nat.eqb (length msg mod 64) 56) eqn:E.
  - apply Nat.eqb_eq in E. destruct k as [|k]; [cbn; now rewrite app_nil_r|].
    exfalso. apply (Hmin 0%nat); [lia|]. rewrite Nat.add_0_r. exact E.
  - apply Nat.eqb_neq in E. destruct k as [|k].
    { rewrite Nat.add_0_r in H56. contradiction. }
    rewrite (IH (msg ++ [0]) k).
    + rewrite <- app_assoc. reflexivity.
    + lia.
    + rewrite app_length. cbn [length]. replace (length msg + 1 + k)%nat with (length msg + S k)%nat by lia.
      exact H56.
    + intros j Hj. rewrite app_length. cbn [length]. specialize (Hmin (S j) ltac:(lia)).
      replace (length msg + 1 + j)%nat with (length msg + S j)%nat by lia. exact Hmin.
Qed.

Lemma zeros_spec n : let k := SM3Spec.zeros n in
  (k < 64)%nat /\ ((n + 1 + k) mod 64 = 56)%nat /\
  forall j, (j < k)%nat -> ((n + 1 + j) mod 64 <> 56)%nat.
Proof.
  unfold SM3Spec.zeros. cbv zeta.
  pose proof (Nat.div_mod (n + 9) 64 ltac:(lia)) as D.
  pose proof (Nat.mod_upper_bound (n + 9) 64 ltac:(lia)) as U.
  set (q := ((n + 9) / 64)%nat) in *. set (r := ((n + 9) mod 64)%nat) in *.
  pose proof (Nat.mod_upper_bound (64 - r) 64 ltac:(lia)) as U2.
  split; [exact U2|].
  destruct (Nat.eq_dec r 0) as [E|E].
  - rewrite E. change ((64 - 0) mod 64)%nat with 0%nat. split; [|intros; lia].
    replace (n + 1 + 0)%nat with (56 + (q - 1) * 64)%nat by lia.
    rewrite Nat.mod_add by lia. reflexivity.
  - rewrite (Nat.mod_small (64 - r)) by lia. split.
    + replace (n + 1 + (64 - r))%nat with (56 + q * 64)%nat by lia.
      rewrite Nat.mod_add by lia. reflexivity.
    + intros j Hj X.
      pose proof (Nat.div_mod (n + 1 + j) 64 ltac:(lia)) as D2. rewrite X in D2. lia.
Qed.

Lemma len_byte_eq l i : len_byte l (8 * i) = (l / 256 ^ i) mod 256 \/ i < 0.
Proof.
  destruct (Z.lt_ge_cases i 0) as [?|Hi]; [right; assumption|left].
  unfold len_byte. change 255 with (Z.ones 8). rewrite Z.land_ones, Z.shiftr_div_pow2 by lia.
  rewrite Z.pow_mul_r by lia. reflexivity.
Qed.

Lemma len_bytes l :
  [len_byte l 56; len_byte l 48; len_byte l 40; len_byte l 32;
   len_byte l 24; len_byte l 16; len_byte l 8; len_byte l 0] = z2be 8 l.
Proof.
  assert (H : forall i, 0 <= i -> len_byte l (8 * i) = (l / 256 ^ i) mod 256).
  { intros i Hi. destruct (len_byte_eq l i) as [E|E]; [exact E|lia]. }
  change 56 with (8 * 7). change 48 with (8 * 6). change 40 with (8 * 5). change 32 with (8 * 4).
  change 24 with (8 * 3). change 16 with (8 * 2). change (len_byte l 8) with (len_byte l (8 * 1)).
  change (len_byte l 0) with (len_byte l (8 * 0)).
  rewrite (H 7), (H 6), (H 5), (H 4), (H 3), (H 2), (H 1), (H 0) by lia.
  unfold z2be. cbn [z2le rev app]. rewrite !Z.div_div by lia.
  rewrite Z.div_1_r. reflexivity.
Qed.

Lemma z2be_mod n z : z2be n (z mod 256 ^ Z.of_nat n) = z2be n z.
Proof.
  unfold z2be. f_equal. revert z. induction n as [|n IH]; intros z; [reflexivity|].
  cbn [z2le]. rewrite Nat2Z.inj_succ, Z.pow_succ_r by lia.
  assert (H256 : 0 < 256 ^ Z.of_nat n) by (apply Z.pow_pos_nonneg; lia).
  f_equal.
  - rewrite Z.rem_mul_r by lia. rewrite Z.mul_comm, Z_mod_plus_full. apply Z.mod_mod. lia.
  - rewrite <- (IH (z / 256)). f_equal. rewrite Z.rem_mul_r by lia.
    rewrite Z.mul_comm, Z.div_add by lia. rewrite (Z.div_small (z mod 256)); [lia|].
    apply Z.mod_pos_bound. lia.
Qed.

Lemma pad_eq s m : holds s m ->
  sm3_pad s = rest 64 m ++ [0x80] ++ repeat 0 (SM3Spec.zeros (length m)) ++ z2be 8 (8 * Z.of_nat (length m)).
Proof.
  intros (_ & HL & HM & _). unfold sm3_pad. cbv zeta. rewrite HM, HL, len_bytes.
  change (u64 (8 * Z.of_nat (length m))) with ((8 * Z.of_nat (length m)) mod 256 ^ Z.of_nat 8).
  rewrite z2be_mod.
  destruct (zeros_spec (length m)) as (Z1 & Z2 & Z3). cbv zeta in *.
  assert (R : forall j, ((length (rest 64 m ++ [0x80]%Z) + j) mod 64 = (length m + 1 + j) mod 64)%nat).
  { intros j. rewrite app_length, rest_length by lia. cbn [length].
    rewrite <- !Nat.add_assoc. rewrite Nat.add_mod_idemp_l by lia. reflexivity. }
  rewrite (pad_zeros_spec 64 _ (SM3Spec.zeros (length m))).
  - rewrite <- !app_assoc. reflexivity.
  - exact Z1.
  - rewrite R. exact Z2.
  - intros j Hj. rewrite R. apply Z3. exact Hj.
Qed.

(** The padded message is a whole number of blocks (the panic of pad is unreachable). *)
Lemma sm3_pad_mult s m : holds s m -> (length (sm3_pad s) mod 64 = 0)%nat.
Proof.
  intros H. rewrite (pad_eq s m H), !app_length, rest_length, repeat_length, z2be_length by lia.
  cbn [length]. destruct (zeros_spec (length m)) as (Z1 & Z2 & Z3). cbv zeta in *.
  rewrite Nat.add_mod_idemp_l by lia.
  replace (length m + (1 + (SM3Spec.zeros (length m) + 8)))%nat with ((length m + 1 + SM3Spec.zeros (length m)) + 8)%nat by lia.
  rewrite <- Nat.add_mod_idemp_l by lia. rewrite Z2. reflexivity.
Qed.

Lemma sum_eq s m inp : bytes_ok m -> bytes_ok inp -> holds s m ->
  snd (sm3_sum s inp) = SM3Spec.hash (m ++ inp).
Proof.
  intros Hm Hi H. pose proof (holds_write s m inp Hm Hi H) as H1.
  unfold sm3_sum. cbv zeta. cbn [snd]. set (s1 := sm3_write s inp) in *.
  assert (Hmi : bytes_ok (m ++ inp)) by now apply bytes_ok_app.
  set (mm := m ++ inp) in *. clearbody mm s1. clear H.
  assert (Hpo : bytes_ok (sm3_pad s1)).
  { rewrite (pad_eq _ _ H1). apply bytes_ok_app; [unfold rest; now apply bytes_ok_skipn|].
    apply bytes_ok_app; [repeat constructor; unfold byte_ok; lia|]. apply bytes_ok_app; [|apply z2be_ok].
    apply Forall_forall. intros x Hx. apply repeat_spec in Hx. subst. unfold byte_ok. lia. }
  destruct (update_eq _ (s_dig s1) (sm3_pad s1) (le_n _) Hpo) as [U _].
  { apply H1. }
  rewrite U. unfold SM3Spec.hash, SM3Spec.padded.
  rewrite (pad_eq _ _ H1). destruct H1 as (HD & _). rewrite HD.
  rewrite (proj1 (full_blocks_app 64 ltac:(lia) mm _)), fold_left_app. reflexivity.
Qed.

Lemma Sm3Sum_spec m : bytes_ok m -> Sm3Sum m = SM3Spec.hash m.
Proof.
  intros H. unfold Sm3Sum.
  rewrite (sum_eq (sm3_write sm3_new m) m []).
  - now rewrite app_nil_r.
  - exact H.
  - constructor.
  - apply (holds_write sm3_new [] m); [constructor|exact H|apply holds_new].
Qed.

Lemma sm3_stream ps inp : Forall bytes_ok ps -> bytes_ok inp ->
  snd (sm3_sum (fold_left sm3_write ps sm3_new) inp) = SM3Spec.hash (concat ps ++ inp).
Proof.
  intros Hp Hi. apply sum_eq; [|exact Hi|].
  - induction Hp; cbn [concat]; [constructor|now apply bytes_ok_app].
  - apply (holds_writes ps sm3_new []); [constructor|exact Hp|apply holds_new].
Qed.

Lemma hash_length m : length (SM3Spec.hash m) = 32%nat.
Proof.
  unfold SM3Spec.hash. destruct (fold_left SM3Spec.CF _ _) as [a b c d e f g h].
  cbn [regs_list map concat]. rewrite !app_length, !z2be_length. reflexivity.
Qed.
Lemma hash_ok m : bytes_ok (SM3Spec.hash m).
Proof.
  unfold SM3Spec.hash. destruct (fold_left SM3Spec.CF _ _) as [a b c d e f g h].
  cbn [regs_list map concat]. repeat (apply bytes_ok_app; [apply z2be_ok|]). constructor.
Qed.
Lemma Sm3Sum_length m : length (Sm3Sum m) = 32%nat.
Proof.
  unfold Sm3Sum, sm3_sum. cbv zeta. cbn [snd]. destruct (sm3_update _ _ _) as [a b c d e f g h].
  cbn [regs_list map concat]. rewrite !app_length, !z2be_length. reflexivity.
Qed.
Lemma Sm3Sum_ok m : bytes_ok (Sm3Sum m).
Proof.
  unfold Sm3Sum, sm3_sum. cbv zeta. cbn [snd]. destruct (sm3_update _ _ _) as [a b c d e f g h].
  cbn [regs_list map concat]. repeat (apply bytes_ok_app; [apply z2be_ok|]). constructor.
Qed.
