(** The blake2s package computes BLAKE2s (RFC 7693), unkeyed, for every output
    size and every way of cutting the message into writes. *)
From Coq Require Import ZArith List Bool Lia.
From Verif Require Import Base Words ModelBlakeCode ModelBlake SpecBlake ProofBlakeC ProofSM3 ProofBlake.
Import ListNotations.
Open Scope Z_scope.

Local Notation w32 := (word 32).
Definition h8 (h : list Z) : Prop := length h = 8%nat /\ Forall w32 h.

(** The two words of the counter. *)
Definition rep (T t0 t1 : Z) : Prop := t0 = T mod 2 ^ 32 /\ t1 = (T / 2 ^ 32) mod 2 ^ 32.
Lemma rep_add T t0 t1 : rep T t0 t1 ->
  rep (T + 64) (u32 (t0 + 64)) (if u32 (t0 + 64) <? 64 then u32 (t1 + 1) else t1).
Proof.
  intros [-> ->]. unfold rep, u32. rewrite Zplus_mod_idemp_l. split; [reflexivity|].
  pose proof (Z.div_mod T (2 ^ 32) ltac:(lia)) as D. pose proof (Z.mod_pos_bound T (2 ^ 32) ltac:(lia)) as B.
  set (q := T / 2 ^ 32) in *. set (r := T mod 2 ^ 32) in *.
  replace (T + 64) with (r + 64 + q * 2 ^ 32) by lia.
  rewrite Z_mod_plus_full, Z.div_add by lia.
  destruct (Z.lt_ge_cases (r + 64) (2 ^ 32)) as [H|H].
  - rewrite (Z.mod_small (r + 64)) by lia. rewrite (Z.div_small (r + 64)) by lia.
    replace (r + 64 <? 64) with false by (symmetry; apply Z.ltb_ge; lia). reflexivity.
  - replace ((r + 64) mod 2 ^ 32) with (r + 64 - 2 ^ 32) by (apply (Z.mod_unique_pos _ _ 1); lia).
    replace ((r + 64) / 2 ^ 32) with 1 by (apply (Z.div_unique_pos _ _ _ (r + 64 - 2 ^ 32)); lia).
    replace (r + 64 - 2 ^ 32 <? 64) with true by (symmetry; apply Z.ltb_lt; lia).
    rewrite Zplus_mod_idemp_l. f_equal. lia.
Qed.
Lemma rep_sub T t0 t1 k : 0 <= k < 2 ^ 32 -> rep T t0 t1 ->
  rep (T - k) (u32 (t0 - k)) (if t0 <? k then u32 (t1 - 1) else t1).
Proof.
  intros Hk [-> ->]. unfold rep, u32. rewrite Zminus_mod_idemp_l. split; [reflexivity|].
  pose proof (Z.div_mod T (2 ^ 32) ltac:(lia)) as D. pose proof (Z.mod_pos_bound T (2 ^ 32) ltac:(lia)) as B.
  set (q := T / 2 ^ 32) in *. set (r := T mod 2 ^ 32) in *.
  replace (T - k) with (r - k + q * 2 ^ 32) by lia.
  rewrite Z.div_add by lia.
  destruct (r <? k) eqn:C.
  - apply Z.ltb_lt in C. replace ((r - k) / 2 ^ 32) with (-1) by (apply (Z.div_unique_pos _ _ _ (r - k + 2 ^ 32)); lia).
    rewrite Zminus_mod_idemp_l. f_equal. lia.
  - apply Z.ltb_ge in C. rewrite (Z.div_small (r - k)) by lia. reflexivity.
Qed.

(** ** One block *)
Lemma words2s_eq p : words2s p = BlakeSpec.words2 p.
Proof. unfold words2s, BlakeSpec.words2. rewrite blocks_map, map_map. reflexivity. Qed.
Lemma words2s_app a b : length a = 64%nat -> words2s (a ++ b) = words2s a.
Proof. intros L. rewrite !words2s_eq. unfold BlakeSpec.words2. rewrite blocks_app by lia. reflexivity. Qed.
Lemma block2s_app d a b : length a = 64%nat -> block2s d (a ++ b) = block2s d a.
Proof. intros L. unfold block2s. rewrite words2s_app by exact L. reflexivity. Qed.

Lemma vget32 l i : Forall w32 l -> w32 (vget l i).
Proof.
  intros H. unfold vget. destruct (Nat.lt_ge_cases i (length l)) as [L|L].
  - apply (proj1 (Forall_forall _ _) H). now apply nth_In.
  - rewrite nth_overflow by lia. split; lia.
Qed.
Lemma iv2_words : Forall w32 BlakeSpec.iv2.
Proof. apply words_dec. vm_compute. reflexivity. Qed.

Lemma block2s_h d b T (f : bool) : h8 (e_h d) -> rep T (e_t0 d) (e_t1 d) -> e_f1 d = 0 ->
  e_f0 d = (if f then 0xFFFFFFFF else 0) ->
  e_h (block2s d b) = BlakeSpec.F (e_h d) b (T + 64) f /\ h8 (e_h (block2s d b)) /\
  rep (T + 64) (e_t0 (block2s d b)) (e_t1 (block2s d b)).
Proof.
  intros [Lh Fh] HT HF1 HF0. pose proof (rep_add _ _ _ HT) as HT'.
  unfold block2s. cbv zeta. cbn [e_h e_t0 e_t1].
  set (t0 := u32 (e_t0 d + 64)) in *. set (t1 := if t0 <? 64 then _ else _) in *.
  destruct HT' as [ET0 ET1]. rewrite ET0, ET1, HF1, HF0. clear ET0 ET1 t0 t1.
  unfold BlakeSpec.F. cbv zeta.
  set (v0 := firstn 8 (e_h d) ++ _).
  match goal with |- context [fold_left _ _ (e_h d ++ ?l)] => set (v0' := e_h d ++ l) end.
  assert (EV : v0 = v0').
  { unfold v0, v0'. rewrite (firstn_all2 (e_h d)) by lia. f_equal. unfold BlakeSpec.get, vget. change iv2s with BlakeSpec.iv2.
    destruct f; rewrite ?Z.lxor_0_r; reflexivity. }
  assert (WI : forall i, w32 (BlakeSpec.get BlakeSpec.iv2 i)).
  { intros i. apply vget32. exact iv2_words. }
  assert (WM : forall x, w32 (x mod 2 ^ 32)) by (intros; apply word_mod; lia).
  assert (VV : vec 32 v0').
  { unfold v0'. split; [rewrite app_length, Lh; reflexivity|]. apply Forall_app. split; [exact Fh|].
    repeat (apply Forall_cons; [first [apply WI|apply word_xor; [lia|apply WI|apply WM]|
      destruct f; [apply word_xor; [lia|apply WI|split; lia]|apply WI]]|]); apply Forall_nil. }
  rewrite EV, blake2s_code_eq.
  destruct (rounds_run 32 16 12 8 7 ltac:(lia) ltac:(lia) ltac:(lia) ltac:(lia) ltac:(lia) (words2s b) [] blake2_inj
    (fun r i => vget (words2s b) (BlakeSpec.sigma r (2 * i))) (fun r i => vget (words2s b) (BlakeSpec.sigma r (2 * i + 1)))
    (fun r i h v Hi => blake2_inj_exec 32 (words2s b) [] r i h v Hi) (seq 0 10) v0' VV) as [RE RV].
  rewrite RE. rewrite words2s_eq in *.
  change (qW 32 16 12 8 7) with BlakeSpec.words32 in *.
  match type of RV with vec 32 ?v => set (vf := v) in * end.
  match goal with |- context [fold_left ?f ?l v0'] => change (fold_left f l v0') with vf end.
  split; [|split].
  - apply map_ext. intros i. unfold vget, BlakeSpec.get. rewrite Z.lxor_assoc. reflexivity.
  - split; [rewrite map_length, seq_length; reflexivity|].
    apply Forall_forall. intros x Hx. apply in_map_iff in Hx. destruct Hx as (i & <- & _). destruct RV as [_ RV].
    repeat apply word_xor; try lia; apply vget32; assumption.
  - split; reflexivity.
Qed.

(** ** Writing *)
Lemma blocks2s_eq n : forall fuel d p, (length p <= fuel)%nat -> length p = (64 * n)%nat ->
  blocks2s fuel d p = fold_left block2s (blocks 64 n p) d.
Proof.
  induction n as [|n IH]; intros fuel d p L L2.
  - destruct p; [|cbn in L2; lia]. destruct fuel; reflexivity.
  - destruct fuel as [|f]; [lia|]. cbn [blocks2s blocks fold_left].
    rewrite (proj2 (Nat.leb_le _ _)) by lia.
    rewrite IH by (rewrite skipn_length; lia). f_equal.
    rewrite <- (firstn_skipn 64 p) at 1. apply block2s_app. rewrite firstn_length. lia.
Qed.
Lemma fold_set_x2 l : forall d x, set_x2 (fold_left block2s l d) x = fold_left block2s l (set_x2 d x).
Proof. induction l as [|b l IH]; intros d x; [reflexivity|]. cbn [fold_left]. rewrite IH. reflexivity. Qed.
Lemma set_x2_x2 d x y : set_x2 (set_x2 d x) y = set_x2 d y. Proof. reflexivity. Qed.
Lemma fold_x2 l : forall d, e_x (fold_left block2s l d) = e_x d.
Proof. induction l as [|b l IH]; intros d; [reflexivity|]. cbn [fold_left]. rewrite IH. reflexivity. Qed.

(** Blocks before the last. *)
Definition nb (n : nat) : nat := ((n - 1) / 64)%nat.
Lemma nb_spec n : (64 * nb n <= n)%nat /\ (n <= 64 * nb n + 64)%nat /\ (0 < n -> 64 * nb n < n)%nat.
Proof.
  unfold nb. pose proof (Nat.div_mod (n - 1) 64 ltac:(lia)). pose proof (Nat.mod_upper_bound (n - 1) 64 ltac:(lia)). lia.
Qed.
Lemma nb_unique n k : (64 * k < n)%nat -> (n <= 64 * k + 64)%nat -> nb n = k.
Proof. intros. destruct (nb_spec n) as (A & B & C). lia. Qed.
Lemma nb_small n : (n <= 64)%nat -> nb n = 0%nat.
Proof. intros. destruct (nb_spec n) as (A & B & C). lia. Qed.

Lemma firstn_whole bs n (p : bytes) : blocks bs n (firstn (bs * n) p) = blocks bs n p.
Proof.
  revert p. induction n as [|n IH]; intros p; [reflexivity|]. cbn [blocks].
  rewrite firstn_firstn, Nat.min_l by lia. f_equal.
  rewrite skipn_firstn_comm. replace (bs * S n - bs)%nat with (bs * n)%nat by lia. apply IH.
Qed.

Lemma write2s_empty d p : e_x d = [] ->
  (if Nat.ltb 64 (length p) then
     let n := (length p / 64 * 64)%nat in
     let n := if Nat.eqb n (length p) then (n - 64)%nat else n in
     (block2s_all d (firstn n p), skipn n p)
   else (d, p)) = (fold_left block2s (blocks 64 (nb (length p)) p) d, skipn (64 * nb (length p)) p).
Proof.
  intros Hx. destruct (Nat.ltb 64 (length p)) eqn:C.
  - apply Nat.ltb_lt in C. cbv zeta.
    assert (EN : (if Nat.eqb (length p / 64 * 64) (length p) then (length p / 64 * 64 - 64) else (length p / 64 * 64))%nat = (64 * nb (length p))%nat).
    { pose proof (Nat.div_mod (length p) 64 ltac:(lia)) as D. pose proof (Nat.mod_upper_bound (length p) 64 ltac:(lia)) as U.
      destruct (Nat.eqb _ _) eqn:Q; [apply Nat.eqb_eq in Q|apply Nat.eqb_neq in Q].
      - rewrite (nb_unique (length p) (length p / 64 - 1)); lia.
      - rewrite (nb_unique (length p) (length p / 64)); lia. }
    rewrite EN. f_equal. destruct (nb_spec (length p)) as (A & B & _).
    assert (LF : length (firstn (64 * nb (length p)) p) = (64 * nb (length p))%nat) by (rewrite firstn_length; lia).
    unfold block2s_all. rewrite (blocks2s_eq (nb (length p))) by (rewrite LF; lia).
    rewrite firstn_whole. reflexivity.
  - apply Nat.ltb_ge in C. rewrite nb_small by exact C. rewrite Nat.mul_0_r. reflexivity.
Qed.

Lemma write2s_eq d p : (length (e_x d) <= 64)%nat ->
  write2s d p = set_x2 (fold_left block2s (blocks 64 (nb (length (e_x d ++ p))) (e_x d ++ p)) d)
                       (skipn (64 * nb (length (e_x d ++ p))) (e_x d ++ p)).
Proof.
  intros Hx. unfold write2s. set (left := (64 - length (e_x d))%nat).
  destruct (Nat.ltb left (length p)) eqn:C.
  - apply Nat.ltb_lt in C.
    set (x1 := e_x d ++ firstn left p). set (p2 := skipn left p).
    assert (L1 : length x1 = 64%nat) by (unfold x1; rewrite app_length, firstn_length; lia).
    assert (L2 : (0 < length p2)%nat) by (unfold p2; rewrite skipn_length; lia).
    assert (EX : e_x d ++ p = x1 ++ p2) by (unfold x1, p2; rewrite <- app_assoc, firstn_skipn; reflexivity).
    rewrite write2s_empty by reflexivity.
    rewrite EX. destruct (nb_spec (length p2)) as (A & B & D). specialize (D L2).
    assert (NB : nb (length (x1 ++ p2)) = S (nb (length p2))).
    { apply nb_unique; rewrite app_length, L1; lia. }
    rewrite NB. cbn [blocks fold_left].
    assert (F1 : firstn 64 (x1 ++ p2) = x1) by (rewrite firstn_app, L1, Nat.sub_diag, firstn_O, app_nil_r; apply firstn_all2; lia).
    assert (F2 : skipn 64 (x1 ++ p2) = p2) by (rewrite skipn_app, L1, Nat.sub_diag, skipn_all2 by lia; reflexivity).
    rewrite F1, F2.
    replace (skipn (64 * S (nb (length p2))) (x1 ++ p2)) with (skipn (64 * nb (length p2)) p2).
    2:{ transitivity (skipn (64 * nb (length p2)) (skipn 64 (x1 ++ p2))); [now rewrite F2|rewrite skipn_add; f_equal; lia]. }
    unfold block2s_all. rewrite (blocks2s_eq 1) by lia. cbn [blocks fold_left].
    rewrite (firstn_all2 x1) by lia.
    rewrite fold_x2. cbn [set_x2 e_x length app].
    rewrite (firstn_all2 (skipn _ p2)) by (rewrite skipn_length; lia).
    rewrite !fold_set_x2. reflexivity.
  - apply Nat.ltb_ge in C. assert (L : (length (e_x d ++ p) <= 64)%nat) by (rewrite app_length; lia).
    rewrite (nb_small _ L). rewrite Nat.mul_0_r. cbn [blocks fold_left skipn].
    replace (Nat.ltb 64 (length p)) with false by (symmetry; apply Nat.ltb_ge; lia).
    rewrite (firstn_all2 p) by lia. reflexivity.
Qed.

Lemma loop2_app a : forall i b h, BlakeSpec.loop2 i (a ++ b) h = BlakeSpec.loop2 (i + Z.of_nat (length a)) b (BlakeSpec.loop2 i a h).
Proof.
  induction a as [|x a IH]; intros i b h; cbn [app BlakeSpec.loop2 length]; [now rewrite Z.add_0_r|].
  rewrite IH. f_equal. lia.
Qed.
Lemma fold_block2s l : forall d i, h8 (e_h d) -> rep (64 * i) (e_t0 d) (e_t1 d) -> e_f0 d = 0 -> e_f1 d = 0 ->
  let d' := fold_left block2s l d in
  e_h d' = BlakeSpec.loop2 i l (e_h d) /\ h8 (e_h d') /\ rep (64 * (i + Z.of_nat (length l))) (e_t0 d') (e_t1 d') /\
  e_f0 d' = 0 /\ e_f1 d' = 0 /\ e_size d' = e_size d.
Proof.
  induction l as [|b l IH]; intros d i H1 H2 H3 H4; cbv zeta.
  - cbn [fold_left BlakeSpec.loop2 length]. rewrite Z.add_0_r. repeat split; try assumption; try apply H1; apply H2.
  - cbn [fold_left BlakeSpec.loop2 length]. destruct (block2s_h d b (64 * i) false H1 H2 H4 H3) as (E1 & V1 & T1).
    replace (64 * i + 64) with (64 * (i + 1)) in * by ring.
    destruct (IH (block2s d b) (i + 1) V1 T1 H3 H4) as (A & B & C & D & F & G). cbv zeta in *.
    rewrite E1 in A. replace (i + Z.of_nat (S (length l))) with (i + 1 + Z.of_nat (length l)) by lia.
    repeat split; try assumption; try apply B; try apply C.
Qed.

Definition h0 (kk nn : Z) : list Z :=
  [Z.lxor (Z.lxor (Z.lxor (BlakeSpec.get BlakeSpec.iv2 0) 0x01010000) (kk * 2 ^ 8)) nn] ++ skipn 1 BlakeSpec.iv2.
Definition holds2 (kk nn : Z) (d : digest2) (m : bytes) : Prop :=
  let n := nb (length m) in
  e_h d = BlakeSpec.loop2 0 (blocks 64 n m) (h0 kk nn) /\ h8 (e_h d) /\
  rep (64 * Z.of_nat n) (e_t0 d) (e_t1 d) /\ e_f0 d = 0 /\ e_f1 d = 0 /\ e_size d = nn /\
  e_x d = skipn (64 * n) m.
Lemma blocks_length bs n l : length (blocks bs n l) = n.
Proof. rewrite blocks_map, map_length, seq_length. reflexivity. Qed.

Lemma holds2_write kk nn d m p : holds2 kk nn d m -> holds2 kk nn (write2s d p) (m ++ p).
Proof.
  intros (H1 & H2 & H3 & H4 & H5 & H6 & H7). cbv zeta in *.
  destruct (nb_spec (length m)) as (A & B & C). set (n := nb (length m)) in *.
  assert (Lx : length (e_x d) = (length m - 64 * n)%nat) by (rewrite H7, skipn_length; reflexivity).
  rewrite write2s_eq by lia.
  set (xp := e_x d ++ p). set (k := nb (length xp)).
  destruct (fold_block2s (blocks 64 k xp) d (Z.of_nat n) H2 H3 H4 H5) as (D1 & D2 & D3 & D4 & D5 & D6). cbv zeta in *.
  assert (EM : m ++ p = firstn (64 * n) m ++ xp).
  { unfold xp. rewrite app_assoc, H7, firstn_skipn. reflexivity. }
  assert (Lf : length (firstn (64 * n) m) = (64 * n)%nat) by (rewrite firstn_length; lia).
  assert (Lxp : length (m ++ p) = (64 * n + length xp)%nat) by (rewrite EM, app_length, Lf; reflexivity).
  destruct (nb_spec (length xp)) as (A' & B' & C'). fold k in A', B', C'.
  assert (NB : nb (length (m ++ p)) = (n + k)%nat).
  { destruct (Nat.eq_dec (length xp) 0) as [Z0|Z0].
    - assert (k = 0%nat) as -> by lia. rewrite Nat.add_0_r, Lxp, Z0.
      assert (length m = (64 * n)%nat). { unfold xp in Z0. rewrite app_length in Z0. lia. }
      assert (length m = 0%nat) by lia. assert (n = 0%nat) as -> by lia. reflexivity.
    - apply nb_unique; lia. }
  unfold holds2. cbv zeta. cbn [set_x2 e_h e_t0 e_t1 e_f0 e_f1 e_size e_x]. rewrite NB.
  assert (EB : blocks 64 (n + k) (m ++ p) = blocks 64 n m ++ blocks 64 k xp).
  { rewrite blocks_add by lia. f_equal.
    - apply blocks_app; lia.
    - rewrite EM, skipn_app, Lf, Nat.sub_diag, skipn_all2 by lia. reflexivity. }
  rewrite EB, loop2_app, blocks_length, Z.add_0_l, <- H1.
  split; [exact D1|]. split; [exact D2|].
  split; [rewrite Nat2Z.inj_add; rewrite blocks_length in D3; exact D3|].
  split; [exact D4|]. split; [exact D5|]. split; [rewrite D6; exact H6|].
  rewrite EM, Nat.mul_add_distr_l, <- skipn_add. f_equal.
  rewrite skipn_app, Lf, Nat.sub_diag, skipn_all2 by lia. reflexivity.
Qed.
Lemma holds2_writes kk nn ps : forall d m, holds2 kk nn d m -> holds2 kk nn (fold_left write2s ps d) (m ++ concat ps).
Proof.
  induction ps as [|p ps IH]; intros d m H.
  - cbn. rewrite app_nil_r. exact H.
  - cbn [fold_left concat]. rewrite app_assoc. apply IH. now apply holds2_write.
Qed.

Lemma h0_table : forallb (fun j => forallb (fun k =>
  let x := Z.lxor (Z.lxor (Z.lxor (BlakeSpec.get BlakeSpec.iv2 0) 0x01010000) (Z.of_nat j * 2 ^ 8)) (Z.of_nat k) in
  (Z.lxor (vget iv2s 0) (le2z [Z.of_nat k; Z.of_nat j; 1; 1]) =? x) && (0 <=? x) && (x <? 2 ^ 32)) (seq 0 33)) (seq 0 33) = true.
Proof. vm_compute. reflexivity. Qed.
Lemma some_inj {A} (x y : A) : Some x = Some y -> x = y.
Proof. intros H. now injection H. Qed.
Definition start (size kk : Z) : digest2 :=
  MkDigest2 (map (fun i => Z.lxor (vget iv2s i) (le2z (firstn 4 (skipn (4 * i) ([size; kk; 1; 1] ++ repeat 0 60))))) (seq 0 8)) 0 0 0 0 [] size.
Lemma start_h kk nn : 1 <= nn <= 32 -> (kk <= 32)%nat -> e_h (start nn (Z.of_nat kk)) = h0 (Z.of_nat kk) nn /\ h8 (h0 (Z.of_nat kk) nn).
Proof.
  intros Hn Hk.
  pose proof h0_table as T. rewrite forallb_forall in T. specialize (T kk ltac:(apply in_seq; lia)).
  rewrite forallb_forall in T. specialize (T (Z.to_nat nn) ltac:(apply in_seq; lia)). rewrite Z2Nat.id in T by lia. cbv zeta in T.
  apply andb_true_iff in T. destruct T as [T T3]. apply andb_true_iff in T. destruct T as [T1 T2].
  apply Z.eqb_eq in T1. apply Z.leb_le in T2. apply Z.ltb_lt in T3.
  split; [unfold h0; rewrite <- T1; reflexivity|].
  split; [reflexivity|]. unfold h0. apply Forall_app. split; [constructor; [split; assumption|constructor]|].
  apply words_dec. vm_compute. reflexivity.
Qed.
Lemma start_holds kk nn : 1 <= nn <= 32 -> (kk <= 32)%nat -> holds2 (Z.of_nat kk) nn (start nn (Z.of_nat kk)) [].
Proof.
  intros Hn Hk. destruct (start_h kk nn Hn Hk) as [E H].
  assert (F : rep 0 (e_t0 (start nn (Z.of_nat kk))) (e_t1 (start nn (Z.of_nat kk))) /\ e_f0 (start nn (Z.of_nat kk)) = 0 /\
    e_f1 (start nn (Z.of_nat kk)) = 0 /\ e_size (start nn (Z.of_nat kk)) = nn /\ e_x (start nn (Z.of_nat kk)) = []) by (repeat split).
  revert E F. generalize (start nn (Z.of_nat kk)) as d. intros d E F.
  destruct F as (F1 & F2 & F3 & F4 & F5).
  unfold holds2. cbv zeta. change (nb (length (@nil Z))) with 0%nat. cbn [blocks BlakeSpec.loop2 skipn Nat.mul]. rewrite E.
  repeat split; try assumption; apply H || apply F1.
Qed.
(** The state of a (keyed) hash after Writes amounting to m. *)
Definition mholds (key : bytes) (nn : Z) (d : mac2) (m : bytes) : Prop :=
  holds2 (Z.of_nat (length key)) nn (m_dig d) (BlakeSpec.key_block key ++ m) /\
  m_ih d = h0 (Z.of_nat (length key)) nn /\
  m_keyed d = Nat.ltb 0 (length key) /\ (m_keyed d = true -> m_key d = BlakeSpec.key_block key).
Lemma key_block_eq key : (0 < length key)%nat -> BlakeSpec.key_block key = key ++ repeat 0 (64 - length key).
Proof. intros H. unfold BlakeSpec.key_block. rewrite (proj2 (Nat.eqb_neq _ _)) by lia. reflexivity. Qed.
(** Writing the key block does not compress it. *)
Lemma write2s_key d p : e_x d = [] -> length p = 64%nat -> e_h (write2s d p) = e_h d.
Proof.
  intros E L. rewrite write2s_eq by (rewrite E; cbn [length]; lia). rewrite E. cbn [app]. rewrite L. change (nb 64) with 0%nat.
  reflexivity.
Qed.
Lemma start_key key nn : 1 <= nn <= 32 -> (length key <= 32)%nat ->
  let d := if Nat.ltb 0 (length key) then write2s (start nn (Z.of_nat (length key))) (BlakeSpec.key_block key) else start nn (Z.of_nat (length key)) in
  holds2 (Z.of_nat (length key)) nn d (BlakeSpec.key_block key) /\ e_h d = h0 (Z.of_nat (length key)) nn.
Proof.
  intros Hn Hk. cbv zeta. pose proof (start_holds (length key) nn Hn Hk) as H0. pose proof (start_h (length key) nn Hn Hk) as [E0 _].
  destruct (Nat.ltb_spec 0 (length key)) as [L|L].
  - split.
    + apply (holds2_write _ _ _ [] (BlakeSpec.key_block key) H0).
    + rewrite write2s_key; [exact E0|reflexivity|]. rewrite key_block_eq by exact L. rewrite app_length, repeat_length. lia.
  - destruct key; [|cbn [length] in L; lia]. split; [exact H0|exact E0].
Qed.
Lemma mholds_new key nn d : 1 <= nn <= 32 -> new2s nn key = Some d -> mholds key nn d [].
Proof.
  intros Hn. unfold new2s. replace (nn =? 0) with false by (symmetry; apply Z.eqb_neq; lia).
  replace (32 <? nn) with false by (symmetry; apply Z.ltb_ge; lia).
  destruct (Nat.ltb_spec 32 (length key)) as [|Hk]; [discriminate|]. cbv zeta. intros X. apply some_inj in X.
  pose proof (start_key key nn Hn Hk) as [S1 S2]. unfold start in S1, S2.
  unfold mholds. rewrite app_nil_r. destruct (Nat.ltb_spec 0 (length key)) as [L|L].
  - rewrite key_block_eq in * by exact L. rewrite <- X. cbn [m_dig m_ih m_key m_keyed]. repeat split; try apply S1; apply S2.
  - rewrite <- X. cbn [m_dig m_ih m_key m_keyed]. repeat split; try apply S1; try exact S2. discriminate.
Qed.
Lemma mholds_write key nn d m p : mholds key nn d m -> mholds key nn (mwrite2s d p) (m ++ p).
Proof.
  intros (H1 & H2 & H3 & H4). unfold mholds, mwrite2s. cbn [m_dig m_ih m_key m_keyed]. rewrite app_assoc.
  repeat split; try assumption; apply (holds2_write _ _ _ _ p H1).
Qed.
Lemma mholds_writes key nn ps : forall d m, mholds key nn d m -> mholds key nn (fold_left mwrite2s ps d) (m ++ concat ps).
Proof.
  induction ps as [|p ps IH]; intros d m H.
  - cbn. rewrite app_nil_r. exact H.
  - cbn [fold_left concat]. rewrite app_assoc. apply IH. now apply mholds_write.
Qed.
Lemma mholds_reset key nn d m : 1 <= nn <= 32 -> (length key <= 32)%nat -> mholds key nn d m -> mholds key nn (mreset2s d) [].
Proof.
  intros Hn Hk (H1 & H2 & H3 & H4). unfold mholds, mreset2s. cbn [m_dig m_ih m_key m_keyed]. rewrite app_nil_r.
  assert (ES : e_size (m_dig d) = nn) by (unfold holds2 in H1; cbv zeta in H1; apply H1).
  assert (Ed : MkDigest2 (m_ih d) 0 0 0 0 [] (e_size (m_dig d)) = start nn (Z.of_nat (length key))).
  { rewrite ES, H2. destruct (start_h (length key) nn Hn Hk) as [E _]. rewrite <- E. reflexivity. }
  rewrite Ed. destruct (start_key key nn Hn Hk) as [S1 S2]. cbv zeta in S1. rewrite H3.
  repeat split; try assumption; try (intros; apply H4; congruence);
    destruct (Nat.ltb 0 (length key)) eqn:EL; try (rewrite H4 by congruence); apply S1.
Qed.

(** ** Sum *)
Lemma firstn_concat4 n (l : list Z) : forall k, (n <= 4 * k)%nat ->
  firstn n (concat (map (fun w => rev (z2be 4 w)) (firstn k l))) = firstn n (concat (map (fun w => rev (z2be 4 w)) l)).
Proof.
  revert n. induction l as [|w l IH]; intros n k H; [now destruct k|].
  destruct k as [|k]; [assert (n = 0%nat) as -> by lia; reflexivity|].
  cbn [firstn map concat]. assert (L : length (rev (z2be 4 w)) = 4%nat) by (rewrite rev_length, z2be_length; reflexivity).
  rewrite !firstn_app, L. f_equal. apply IH. lia.
Qed.
Theorem sum2s_eq kk nn d m inp : 1 <= nn <= 32 -> holds2 kk nn d m -> sum2s d inp = inp ++ BlakeSpec.hash2s_data kk nn m.
Proof.
  intros Hn (H1 & H2 & H3 & H4 & H5 & H6 & H7). cbv zeta in *.
  destruct (nb_spec (length m)) as (A & B & C). set (n := nb (length m)) in *.
  assert (Lx : length (e_x d) = (length m - 64 * n)%nat) by (rewrite H7, skipn_length; reflexivity).
  unfold sum2s. cbv zeta. f_equal.
  rewrite (u32_small (64 - _)) by (unfold w32_ok; lia).
  set (dec := 64 - Z.of_nat (length (e_x d))).
  set (xx := e_x d ++ repeat 0 (64 - length (e_x d))).
  assert (Lxx : length xx = 64%nat) by (unfold xx; rewrite app_length, repeat_length; lia).
  match goal with |- context [block2s_all ?dd xx] => set (d1 := dd) end.
  pose proof (rep_sub (64 * Z.of_nat n) (e_t0 d) (e_t1 d) dec ltac:(lia) H3) as R1.
  destruct (block2s_h d1 xx (64 * Z.of_nat n - dec) true H2 R1 H5 eq_refl) as (E1 & _).
  unfold block2s_all. rewrite (blocks2s_eq 1) by lia. cbn [blocks fold_left]. rewrite (firstn_all2 xx) by lia.
  rewrite E1. rewrite H6, firstn_concat4.
  2:{ rewrite Z2Nat.inj_add, Z2Nat.inj_div by (try apply Z.div_pos; lia). pose proof (Z.div_mod (nn - 1) 4 ltac:(lia)).
      pose proof (Z.mod_pos_bound (nn - 1) 4 ltac:(lia)). rewrite <- Z2Nat.inj_div by lia. lia. }
  unfold BlakeSpec.hash2s_data. fold n. cbv zeta. fold (nb (length m)). fold n. rewrite <- H7. fold xx.
  change (e_h d1) with (e_h d). rewrite H1. do 4 f_equal. unfold dec. rewrite Lx. lia.
Qed.
Theorem msum_eq key nn d m inp : 1 <= nn <= 32 -> mholds key nn d m -> msum2s d inp = inp ++ BlakeSpec.mac2s nn key m.
Proof. intros Hn (H & _). exact (sum2s_eq _ nn _ _ inp Hn H). Qed.
Theorem blake2s_stream nn key d ps inp : 1 <= nn <= 32 -> new2s nn key = Some d ->
  msum2s (fold_left mwrite2s ps d) inp = inp ++ BlakeSpec.mac2s nn key (concat ps).
Proof.
  intros Hn Hd. apply msum_eq; [exact Hn|]. apply (mholds_writes key nn ps d []). now apply mholds_new.
Qed.
