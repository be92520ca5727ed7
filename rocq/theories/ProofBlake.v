(** The BLAKE packages compute BLAKE-224, -256, -384 and -512, for every way of
    cutting the message into writes. *)
From Coq Require Import ZArith List Bool Lia.
From Verif Require Import Base Words ModelBlakeCode ModelBlake SpecBlake ProofBlakeC ProofSM3.
Import ListNotations.
Open Scope Z_scope.

Lemma blocks_map bs n : forall l, blocks bs n l = map (fun i => firstn bs (skipn (bs * i) l)) (seq 0 n).
Proof.
  induction n as [|n IH]; intros l; [reflexivity|]. cbn [blocks seq map].
  rewrite Nat.mul_0_r. cbn [skipn]. f_equal. rewrite <- seq_shift, map_map, IH.
  apply map_ext. intros i. rewrite skipn_add. do 2 f_equal. lia.
Qed.

Section Blake.
Variable P : blake_params.
Variable V : BlakeSpec.variant.
Variables r1 r2 r3 r4 E : nat.
Variable small : bool.
Local Notation W := (bp_W P).
Local Notation wb := (bp_wb P).
Local Notation BS := (bp_block P).
Hypothesis HW : 0 < W.
Hypothesis R1 : 0 < Z.of_nat r1 < W.
Hypothesis R2 : 0 < Z.of_nat r2 < W.
Hypothesis R3 : 0 < Z.of_nat r3 < W.
Hypothesis R4 : 0 < Z.of_nat r4 < W.
Hypothesis Hq : BlakeSpec.v_words V = qW W r1 r2 r3 r4.
Hypothesis Hcode : bp_code P = flat_map (fun r => round_code r1 r2 r3 r4 (blake_inj r)) (seq 0 (BlakeSpec.v_rounds V)).
Hypothesis Hcst : BlakeSpec.v_c V = bp_cst P.
Hypothesis Hcw : Forall (word W) (bp_cst P).
Hypothesis Hb : BlakeSpec.v_bytes V = wb.
Hypothesis Hwb : (0 < wb)%nat.
Hypothesis Hbs : BS = (16 * wb)%nat.
Hypothesis Hedge : bp_edge P = E.
Hypothesis HE : BS = (E + 1 + 2 * wb)%nat.
Hypothesis HE0 : (0 < E)%nat.
Hypothesis HE200 : (BS <= 200)%nat.
Hypothesis Hbits : bp_bits P = 8 * Z.of_nat BS.
Hypothesis Hebits : bp_edge_bits P = 8 * Z.of_nat E.
Hypothesis Hlbits : bp_len_bits P = 8 * Z.of_nat (2 * wb).
Hypothesis Hthigh : forall t, 0 <= t < 2 ^ 64 -> bp_t_high P t = (t / 2 ^ W) mod 2 ^ W.
Hypothesis Hblen : forall l, 0 <= l < 2 ^ 64 -> blen P l = z2be (2 * wb) l.
Hypothesis Hsmall : (d_size (bnew P small) =? bp_small P) = small.
Hypothesis Hbit : BlakeSpec.v_bit V = if small then 0 else 1.
Hypothesis Hiv : BlakeSpec.v_iv V = d_h (bnew P small).
Hypothesis Hout : BlakeSpec.v_out V = Z.to_nat (d_size (bnew P small) / W).
Hypothesis Hivw : length (BlakeSpec.v_iv V) = 8%nat /\ Forall (word W) (BlakeSpec.v_iv V).
Hypothesis HWwb : W = 8 * Z.of_nat wb.

Lemma BS_pos : (0 < BS)%nat. Proof using All. lia. Qed.
Lemma bb_eq : BlakeSpec.block_bytes V = BS.
Proof using All. unfold BlakeSpec.block_bytes. rewrite Hb, Hbs. reflexivity. Qed.

Lemma bwords_eq p : bwords P p = BlakeSpec.message_words V p.
Proof using All. unfold bwords, BlakeSpec.message_words. rewrite Hb, blocks_map, map_map. reflexivity. Qed.
Lemma bwords_app a b : length a = BS -> bwords P (a ++ b) = bwords P a.
Proof using All.
  intros L. rewrite !bwords_eq. unfold BlakeSpec.message_words. rewrite Hb, blocks_app by lia. reflexivity.
Qed.
Lemma bblock_app d a b : length a = BS -> bblock P d (a ++ b) = bblock P d a.
Proof using All. intros L. unfold bblock. rewrite bwords_app by exact L. reflexivity. Qed.

Definition hvec (h : list Z) : Prop := length h = 8%nat /\ Forall (word W) h.
Definition svec (s : list Z) : Prop := length s = 4%nat /\ Forall (word W) s.
Lemma vget_word l i : Forall (word W) l -> word W (vget l i).
Proof using All.
  intros H. unfold vget. destruct (Nat.lt_ge_cases i (length l)) as [L|L].
  - apply (proj1 (Forall_forall _ _) H). now apply nth_In.
  - rewrite nth_overflow by lia. split; [lia|apply M_pos; exact HW].
Qed.

Definition tcount (d : digest) : Z := if d_nullt d then 0 else u64 (d_t d + bp_bits P).

Lemma bblock_h d b : hvec (d_h d) -> svec (d_s d) ->
  d_h (bblock P d b) = BlakeSpec.compress V (d_h d) (d_s d) (tcount d) b /\ hvec (d_h (bblock P d b)).
Proof using All.
  intros [Lh Fh] [Ls Fs]. unfold bblock. cbv zeta. cbn [d_h].
  pose proof (M_pos W HW) as MP.
  assert (T64 : 0 <= u64 (d_t d + bp_bits P) < 2 ^ 64) by apply u64_ok.
  set (t := u64 (d_t d + bp_bits P)) in *.
  set (v0 := firstn 8 (d_h d) ++ _).
  set (v0' := d_h d ++ [Z.lxor (BlakeSpec.get (d_s d) 0) (vget (bp_cst P) 0); Z.lxor (BlakeSpec.get (d_s d) 1) (vget (bp_cst P) 1);
    Z.lxor (BlakeSpec.get (d_s d) 2) (vget (bp_cst P) 2); Z.lxor (BlakeSpec.get (d_s d) 3) (vget (bp_cst P) 3);
    Z.lxor (tcount d mod 2 ^ W) (vget (bp_cst P) 4); Z.lxor (tcount d mod 2 ^ W) (vget (bp_cst P) 5);
    Z.lxor ((tcount d / 2 ^ W) mod 2 ^ W) (vget (bp_cst P) 6); Z.lxor ((tcount d / 2 ^ W) mod 2 ^ W) (vget (bp_cst P) 7)]).
  assert (EV : v0 = v0').
  { unfold v0, v0'. rewrite (firstn_all2 (d_h d)) by lia. f_equal.
    unfold BlakeSpec.get, tcount. fold t. unfold vget.
    rewrite (Z.lxor_comm (nth 0 (d_s d) 0)), (Z.lxor_comm (nth 1 (d_s d) 0)), (Z.lxor_comm (nth 2 (d_s d) 0)), (Z.lxor_comm (nth 3 (d_s d) 0)).
    destruct (d_nullt d).
    - rewrite Z.div_0_l, Z.mod_0_l, !Z.lxor_0_l by lia. reflexivity.
    - rewrite (Hthigh t T64). rewrite !(Z.lxor_comm (t mod 2 ^ W)), !(Z.lxor_comm ((t / 2 ^ W) mod 2 ^ W)). reflexivity. }
  assert (W0 : forall i, word W (vget (bp_cst P) i)) by (intros; apply vget_word; exact Hcw).
  assert (WS : forall i, word W (vget (d_s d) i)) by (intros; apply vget_word; exact Fs).
  assert (VV : vec W v0').
  { unfold v0'. split; [rewrite app_length, Lh; reflexivity|]. apply Forall_app. split; [exact Fh|].
    assert (WM : forall x, word W (x mod 2 ^ W)) by (intros; apply word_mod; exact HW).
    repeat (apply Forall_cons; [apply word_xor; [exact HW| |apply W0]; first [apply WS|apply WM]|]). apply Forall_nil. }
  rewrite EV, Hcode.
  destruct (rounds_run W r1 r2 r3 r4 HW R1 R2 R3 R4 (bwords P b) (bp_cst P) blake_inj
    (fun r i => Z.lxor (vget (bwords P b) (BlakeSpec.sigma r (2 * i))) (vget (bp_cst P) (BlakeSpec.sigma r (2 * i + 1))))
    (fun r i => Z.lxor (vget (bwords P b) (BlakeSpec.sigma r (2 * i + 1))) (vget (bp_cst P) (BlakeSpec.sigma r (2 * i))))
    (fun r i h v Hi => blake_inj_exec W (bwords P b) (bp_cst P) r i h v Hi)
    (seq 0 (BlakeSpec.v_rounds V)) v0' VV) as [RE RV].
  rewrite RE. rewrite bwords_eq in *.
  unfold BlakeSpec.compress. rewrite Hq, Hcst. cbn [BlakeSpec.wW qW].
  assert (TR : forall l v, fold_left (BlakeSpec.the_round V (BlakeSpec.message_words V b)) l v =
    fold_left (fun v r => BlakeSpec.round (qW W r1 r2 r3 r4)
      (fun i => Z.lxor (vget (BlakeSpec.message_words V b) (BlakeSpec.sigma r (2 * i))) (vget (bp_cst P) (BlakeSpec.sigma r (2 * i + 1))))
      (fun i => Z.lxor (vget (BlakeSpec.message_words V b) (BlakeSpec.sigma r (2 * i + 1))) (vget (bp_cst P) (BlakeSpec.sigma r (2 * i)))) v) l v).
  { intros l v. apply fold_left_ext_in. intros v' r _. unfold BlakeSpec.the_round. rewrite Hq, Hcst. reflexivity. }
  fold v0'. cbv zeta.
  match goal with |- context [fold_left (BlakeSpec.the_round V ?m) ?l ?v] => change v with v0' end.
  rewrite TR. set (vf := fold_left _ _ v0') in *.
  assert (EM : forall i, Z.lxor (vget (d_h d) i) (Z.lxor (Z.lxor (vget vf i) (vget vf (i + 8))) (vget (d_s d) (i mod 4))) =
    Z.lxor (Z.lxor (Z.lxor (BlakeSpec.get (d_h d) i) (BlakeSpec.get (d_s d) (i mod 4))) (BlakeSpec.get vf i)) (BlakeSpec.get vf (i + 8))).
  { intros i. unfold vget, BlakeSpec.get. rewrite !Z.lxor_assoc. f_equal.
    rewrite <- (Z.lxor_assoc (nth i vf 0)). rewrite Z.lxor_comm. f_equal. }
  rewrite (map_ext _ _ EM). split; [reflexivity|].
  split; [rewrite map_length, seq_length; reflexivity|].
  apply Forall_forall. intros x Hx. apply in_map_iff in Hx. destruct Hx as (i & <- & _).
  destruct RV as [_ RV].
  repeat apply word_xor; try exact HW; apply vget_word; assumption.
Qed.

(** ** Writing *)
Lemma bblock_fields d b : d_size (bblock P d b) = d_size d /\ d_s (bblock P d b) = d_s d /\ d_t (bblock P d b) = u64 (d_t d + bp_bits P)
  /\ d_nullt (bblock P d b) = d_nullt d /\ d_x (bblock P d b) = d_x d.
Proof. repeat split. Qed.
Lemma bblocks_eq fuel : forall d p, (length p <= fuel)%nat -> bblocks P fuel d p = fold_left (bblock P) (full_blocks BS p) d.
Proof using All.
  pose proof BS_pos as BP.
  induction fuel as [|f IH]; intros d p L.
  - destruct p; [|cbn in L; lia]. rewrite (proj1 (full_blocks_short BS [] BP)). reflexivity.
  - cbn [bblocks]. destruct (Nat.leb BS (length p)) eqn:C.
    + apply Nat.leb_le in C.
      assert (Ls : length (firstn BS p) = BS) by (rewrite firstn_length; lia).
      pose proof (proj1 (full_blocks_cons BS BP _ (skipn BS p) Ls)) as F. rewrite firstn_skipn in F.
      rewrite F. cbn [fold_left]. rewrite <- IH by (rewrite skipn_length; lia). f_equal.
      rewrite <- (firstn_skipn BS p) at 1. apply bblock_app. exact Ls.
    + apply Nat.leb_gt in C. rewrite (proj1 (full_blocks_short BS p C)). reflexivity.
Qed.
Lemma bblock_all_eq d p : bblock_all P d p = fold_left (bblock P) (full_blocks BS p) d.
Proof using All. apply bblocks_eq. lia. Qed.
Lemma fold_set_x l : forall d x, set_x (fold_left (bblock P) l d) x = fold_left (bblock P) l (set_x d x).
Proof. induction l as [|b l IH]; intros d x; [reflexivity|]. cbn [fold_left]. rewrite IH. reflexivity. Qed.
Lemma set_x_same d : set_x d (d_x d) = d. Proof. destruct d; reflexivity. Qed.
Lemma fold_x l : forall d, d_x (fold_left (bblock P) l d) = d_x d.
Proof. induction l as [|b l IH]; intros d; [reflexivity|]. cbn [fold_left]. rewrite IH. reflexivity. Qed.

Lemma full_blocks_whole p n : (n * BS <= length p)%nat -> (length p < n * BS + BS)%nat ->
  full_blocks BS (firstn (n * BS) p) = full_blocks BS p /\ rest BS p = skipn (n * BS) p.
Proof using All.
  intros H1 H2. pose proof BS_pos as BP.
  assert (Hn : (length p / BS = n)%nat).
  { symmetry. apply (Nat.div_unique _ _ _ (length p - n * BS)); lia. }
  split; [|unfold rest; rewrite Hn, Nat.mul_comm; reflexivity].
  rewrite <- (firstn_skipn (n * BS) p) at 2.
  assert (Lf : length (firstn (n * BS) p) = (n * BS)%nat) by (rewrite firstn_length; lia).
  destruct (full_blocks_app BS BP (firstn (n * BS) p) (skipn (n * BS) p)) as [F _]. rewrite F.
  rewrite (full_blocks_exact BS BP (firstn (n * BS) p)) by (rewrite Lf; apply Nat.mod_mul; lia).
  cbn [app]. rewrite (proj1 (full_blocks_short BS (skipn (n * BS) p) ltac:(rewrite skipn_length; lia))).
  now rewrite app_nil_r.
Qed.

Lemma bwrite_nx0 d p : d_x d = [] -> bwrite P d p = set_x (fold_left (bblock P) (full_blocks BS p) d) (rest BS p).
Proof using All.
  intros Hx. pose proof BS_pos as BP. unfold bwrite. rewrite Hx. change (Nat.ltb 0 (length (@nil Z))) with false. cbv iota zeta.
  destruct (Nat.leb BS (length p)) eqn:C.
  - apply Nat.leb_le in C.
    pose proof (Nat.mul_div_le (length p) BS ltac:(lia)) as D1.
    pose proof (Nat.mul_succ_div_gt (length p) BS ltac:(lia)) as D2.
    destruct (full_blocks_whole p (length p / BS) ltac:(lia) ltac:(lia)) as [F R].
    rewrite bblock_all_eq, F, R.
    assert (L : (length (skipn (length p / BS * BS) p) < BS)%nat) by (rewrite skipn_length; lia).
    destruct (Nat.ltb 0 (length (skipn (length p / BS * BS) p))) eqn:C2.
    + rewrite firstn_all2 by lia. reflexivity.
    + apply Nat.ltb_ge in C2. destruct (skipn (length p / BS * BS) p); [|cbn in C2; lia].
      rewrite <- Hx, <- (fold_x (full_blocks BS p) d), set_x_same. reflexivity.
  - apply Nat.leb_gt in C. destruct (full_blocks_short BS p C) as [F R]. rewrite F, R. cbn [fold_left].
    destruct (Nat.ltb 0 (length p)) eqn:C2.
    + rewrite firstn_all2 by lia. reflexivity.
    + apply Nat.ltb_ge in C2. destruct p; [|cbn in C2; lia]. rewrite <- Hx, set_x_same. reflexivity.
Qed.

Lemma bwrite_eq d p : (length (d_x d) < BS)%nat ->
  bwrite P d p = set_x (fold_left (bblock P) (full_blocks BS (d_x d ++ p)) d) (rest BS (d_x d ++ p)).
Proof using All.
  intros Hx. pose proof BS_pos as BP. destruct (Nat.ltb 0 (length (d_x d))) eqn:C.
  2:{ apply Nat.ltb_ge in C. assert (X : d_x d = []) by (destruct (d_x d); [reflexivity|cbn in C; lia]).
      rewrite (bwrite_nx0 d p X), X. reflexivity. }
  apply Nat.ltb_lt in C.
  destruct (Nat.lt_ge_cases (length p) (BS - length (d_x d))) as [Hs|Hs].
  - (* the block is not completed *)
    unfold bwrite. rewrite (proj2 (Nat.ltb_lt _ _) C).
    rewrite Nat.min_l by lia. rewrite (firstn_all2 p) by lia. rewrite skipn_all.
    assert (L : (length (d_x d ++ p) < BS)%nat) by (rewrite app_length; lia).
    replace (Nat.eqb (length (d_x d ++ p)) BS) with false by (symmetry; apply Nat.eqb_neq; lia).
    cbn [length]. replace (Nat.leb BS 0) with false by (symmetry; apply Nat.leb_gt; lia). cbn [length Nat.ltb Nat.leb].
    destruct (full_blocks_short BS _ L) as [-> ->]. reflexivity.
  - set (x1 := d_x d ++ firstn (BS - length (d_x d)) p).
    assert (L1 : length x1 = BS) by (unfold x1; rewrite app_length, firstn_length; lia).
    set (p2 := skipn (BS - length (d_x d)) p).
    assert (EW : bwrite P d p = bwrite P (set_x (bblock_all P d x1) []) p2).
    { unfold bwrite at 1. rewrite (proj2 (Nat.ltb_lt _ _) C). rewrite Nat.min_r by lia. fold x1. fold p2.
      rewrite L1, Nat.eqb_refl. unfold bwrite. cbn [d_x set_x length Nat.ltb Nat.leb]. reflexivity. }
    rewrite EW, bwrite_nx0 by reflexivity.
    assert (EX : d_x d ++ p = x1 ++ p2) by (unfold x1, p2; rewrite <- app_assoc, firstn_skipn; reflexivity).
    rewrite EX. destruct (full_blocks_cons BS BP x1 p2 L1) as [F R]. rewrite F, R. cbn [fold_left].
    rewrite bblock_all_eq.
    pose proof (full_blocks_cons BS BP x1 [] L1) as [F1 _]. rewrite app_nil_r in F1. rewrite F1.
    rewrite (proj1 (full_blocks_short BS [] BP)). cbn [fold_left]. rewrite !fold_set_x. reflexivity.
Qed.

(** ** The state after writing m *)
Fixpoint iter0 (s : list Z) (i : nat) (bl : list bytes) (h : list Z) : list Z :=
  match bl with
  | [] => h
  | b :: bl => iter0 s (S i) bl (BlakeSpec.compress V h s (u64 (8 * Z.of_nat BS * (Z.of_nat i + 1))) b)
  end.
Lemma iter0_app s a : forall i b h, iter0 s i (a ++ b) h = iter0 s (i + length a) b (iter0 s i a h).
Proof.
  induction a as [|x a IH]; intros i b h; cbn [app iter0 length]; [now rewrite Nat.add_0_r|].
  rewrite IH. f_equal. lia.
Qed.
Lemma iterate_app len s a : forall i b h, BlakeSpec.iterate V len s i (a ++ b) h =
  BlakeSpec.iterate V len s (i + length a) b (BlakeSpec.iterate V len s i a h).
Proof.
  induction a as [|x a IH]; intros i b h; cbn [app BlakeSpec.iterate length]; [now rewrite Nat.add_0_r|].
  rewrite IH. f_equal. lia.
Qed.
Lemma iterate_iter0 len s bl : forall i h, 0 <= 8 * len < 2 ^ 64 -> Z.of_nat BS * Z.of_nat (i + length bl) <= len ->
  BlakeSpec.iterate V len s i bl h = iter0 s i bl h.
Proof using All.
  pose proof BS_pos as BP.
  induction bl as [|b bl IH]; intros i h L H; [reflexivity|]. cbn [BlakeSpec.iterate iter0].
  rewrite IH; [|exact L|cbn [length] in H; replace (S i + length bl)%nat with (i + S (length bl))%nat by lia; exact H].
  f_equal. f_equal. unfold BlakeSpec.counter. rewrite bb_eq. cbn [length] in H.
  assert (B : Z.of_nat BS * (Z.of_nat i + 1) <= len) by (clear - H BP; nia).
  replace (8 * len <=? 8 * Z.of_nat BS * Z.of_nat i) with false by (symmetry; apply Z.leb_gt; clear - B BP; nia).
  rewrite Z.min_r by (clear - B; lia). symmetry. apply u64_small. unfold w64_ok. clear - B L BP. nia.
Qed.

Definition bholds (s : list Z) (d : digest) (m : bytes) : Prop :=
  d_size d = d_size (bnew P small) /\ d_s d = s /\ d_nullt d = false /\
  d_h d = iter0 s 0 (full_blocks BS m) (BlakeSpec.v_iv V) /\ hvec (d_h d) /\
  d_t d = u64 (8 * Z.of_nat BS * Z.of_nat (length m / BS)) /\ d_x d = rest BS m.

Lemma fold_bblock s l : svec s -> forall d i, d_s d = s -> d_nullt d = false -> hvec (d_h d) ->
  d_t d = u64 (8 * Z.of_nat BS * Z.of_nat i) ->
  let d' := fold_left (bblock P) l d in
  d_size d' = d_size d /\ d_s d' = s /\ d_nullt d' = false /\ d_h d' = iter0 s i l (d_h d) /\ hvec (d_h d') /\
  d_t d' = u64 (8 * Z.of_nat BS * Z.of_nat (i + length l)) /\ d_x d' = d_x d.
Proof using All.
  intros Hs. induction l as [|b l IH]; intros d i H1 H2 H3 H4; cbv zeta.
  - cbn [fold_left iter0 length]. rewrite Nat.add_0_r. repeat split; try assumption; apply H3.
  - cbn [fold_left iter0 length].
    assert (Hs' : svec (d_s d)) by (rewrite H1; exact Hs).
    destruct (bblock_h d b H3 Hs') as [E1 V1].
    assert (TC : tcount d = u64 (8 * Z.of_nat BS * (Z.of_nat i + 1))).
    { unfold tcount. rewrite H2, H4, Hbits. unfold u64. rewrite Zplus_mod_idemp_l. f_equal. ring. }
    destruct (IH (bblock P d b) (S i)) as (A & B & C & D & F & G & I).
    + exact H1.
    + exact H2.
    + exact V1.
    + destruct (bblock_fields d b) as (_ & _ & -> & _). unfold tcount in TC. rewrite H2 in TC. rewrite TC. f_equal. lia.
    + cbv zeta in *. rewrite E1, TC, H1 in D. repeat split; try assumption; try apply F.
      rewrite G. do 3 f_equal. lia.
Qed.

Lemma bholds_write s d m p : svec s -> bholds s d m -> bholds s (bwrite P d p) (m ++ p).
Proof using All.
  intros Hs (H1 & H2 & H3 & H4 & H5 & H6 & H7). pose proof BS_pos as BP.
  rewrite bwrite_eq by (rewrite H7; apply rest_lt; exact BP).
  destruct (full_blocks_app BS BP m p) as [F R]. rewrite H7.
  destruct (fold_bblock s (full_blocks BS (rest BS m ++ p)) Hs d (length m / BS) H2 H3 H5 H6) as (A & B & C & D & G & I & J).
  cbv zeta in *.
  assert (LF : forall l, length (full_blocks BS l) = (length l / BS)%nat).
  { intros l. unfold full_blocks. rewrite blocks_map, map_length, seq_length. reflexivity. }
  assert (LA : (length (m ++ p) / BS = length m / BS + length (full_blocks BS (rest BS m ++ p)))%nat).
  { rewrite <- !LF. rewrite F, app_length. reflexivity. }
  unfold bholds. cbn [set_x d_size d_s d_nullt d_h d_t d_x].
  rewrite A, B, C, D, I, F, R, iter0_app, LA, LF, <- H4. cbn [Nat.add].
  repeat split; try assumption; try reflexivity; try (rewrite <- D; apply G).
Qed.
Lemma bholds_writes s ps : svec s -> forall d m, bholds s d m -> bholds s (fold_left (bwrite P) ps d) (m ++ concat ps).
Proof using All.
  intros Hs. induction ps as [|p ps IH]; intros d m H.
  - cbn. rewrite app_nil_r. exact H.
  - cbn [fold_left concat]. rewrite app_assoc. apply IH. now apply bholds_write.
Qed.

Definition with_salt (s : list Z) : digest := MkDigest (d_size (bnew P small)) (d_h (bnew P small)) s 0 false [].
Lemma bholds_new s : bholds s (with_salt s) [].
Proof using All.
  pose proof BS_pos as BP. unfold bholds, with_salt. cbn [d_size d_s d_nullt d_h d_t d_x length].
  rewrite Nat.div_0_l by lia. unfold full_blocks, rest. cbn [length]. rewrite Nat.div_0_l, Nat.mul_0_r by lia. cbn [blocks iter0 skipn].
  rewrite Z.mul_0_r. rewrite <- Hiv. repeat split; try reflexivity; apply Hivw.
Qed.

(** ** Sum *)
Lemma firstn_rep (n k : nat) (x : Z) : (n <= k)%nat -> firstn n (repeat x k) = repeat x n.
Proof. revert k. induction n as [|n IH]; intros [|k] H; try reflexivity; [lia|]. cbn. now rewrite IH by lia. Qed.
Lemma bpad_0 n : (0 < n <= 200)%nat -> bpad 0 n = 0x80 :: repeat 0 (n - 1).
Proof.
  intros H. unfold bpad. change (skipn 0 ?l) with l. rewrite Nat.sub_0_r. destruct n as [|n]; [lia|].
  rewrite firstn_cons, Nat.sub_succ, Nat.sub_0_r. f_equal. apply firstn_rep. lia.
Qed.
Lemma bpad_1 n : (n <= 200)%nat -> bpad 1 (n + 1) = repeat 0 n.
Proof.
  intros H. unfold bpad. rewrite Nat.add_sub. change (skipn 1 (?a :: ?l)) with l. apply firstn_rep. lia.
Qed.
Lemma one_block b : length b = BS -> full_blocks BS b = [b].
Proof using All.
  intros L. pose proof BS_pos as BP. destruct (full_blocks_cons BS BP b [] L) as [F _]. rewrite app_nil_r in F.
  rewrite F, (proj1 (full_blocks_short BS [] BP)). reflexivity.
Qed.
Lemma bwrite_short d p : (length (d_x d) + length p < BS)%nat -> bwrite P d p = set_x d (d_x d ++ p).
Proof using All.
  intros L. rewrite bwrite_eq by lia. destruct (full_blocks_short BS (d_x d ++ p) ltac:(rewrite app_length; exact L)) as [-> ->].
  reflexivity.
Qed.
Lemma bwrite_block d p : (length (d_x d) < BS)%nat -> (length (d_x d) + length p = BS)%nat ->
  bwrite P d p = set_x (bblock P d (d_x d ++ p)) [].
Proof using All.
  intros L L2. pose proof BS_pos as BP. assert (L3 : length (d_x d ++ p) = BS) by (rewrite app_length; exact L2).
  rewrite bwrite_eq by lia. rewrite one_block by exact L3.
  rewrite (full_blocks_exact BS BP) by (rewrite L3; apply Nat.mod_same; lia). reflexivity.
Qed.
Lemma u64_add a b : u64 (u64 a + b) = u64 (a + b).
Proof. unfold u64. now rewrite Zplus_mod_idemp_l. Qed.
Lemma u64_sub a b : u64 (u64 a - b) = u64 (a - b).
Proof. unfold u64. now rewrite Zminus_mod_idemp_l. Qed.

Lemma u64_sub2 a b c e : u64 (u64 a - b - c + e) = u64 (a - b - c + e).
Proof.
  replace (u64 a - b - c + e) with (u64 a + (e - b - c)) by ring. rewrite u64_add. f_equal. ring.
Qed.

Lemma counter_last m : (0 < length (rest BS m))%nat ->
  BlakeSpec.counter V (Z.of_nat (length m)) (length m / BS) = 8 * Z.of_nat (length m).
Proof using All.
  pose proof BS_pos as BP. rewrite rest_length by exact BP. intros H. unfold BlakeSpec.counter. rewrite bb_eq.
  pose proof (Nat.div_mod (length m) BS ltac:(lia)) as D. pose proof (Nat.mod_upper_bound (length m) BS ltac:(lia)) as U.
  set (n := (length m / BS)%nat) in *. set (r := (length m mod BS)%nat) in *.
  assert (DZ : Z.of_nat (length m) = Z.of_nat BS * Z.of_nat n + Z.of_nat r) by lia. rewrite DZ. clear DZ D.
  replace (_ <=? _) with false by (symmetry; apply Z.leb_gt; clear - H; lia).
  apply Z.min_l. clear - U. lia.
Qed.
Lemma counter_zero (m : bytes) i : (length m <= BS * i)%nat -> BlakeSpec.counter V (Z.of_nat (length m)) i = 0.
Proof using All.
  intros H. unfold BlakeSpec.counter. rewrite bb_eq. rewrite (proj2 (Z.leb_le _ _)); [reflexivity|]. clear - H. nia.
Qed.

Theorem bsum_eq s d m inp : svec s -> bholds s d m -> 8 * Z.of_nat (length m) < 2 ^ 64 ->
  bsum P d inp = inp ++ BlakeSpec.hash V s m.
Proof using All.
  intros Hs (H1 & H2 & H3 & H4 & H5 & H6 & H7) L64. pose proof BS_pos as BP.
  assert (Hs' : svec (d_s d)) by (rewrite H2; exact Hs).
  set (x := rest BS m) in *.
  assert (Lx : (length x < BS)%nat) by (unfold x; apply rest_lt; exact BP).
  pose proof (Nat.div_mod (length m) BS ltac:(lia)) as D. rewrite <- (rest_length BS BP m) in D. fold x in D.
  set (n := (length m / BS)%nat) in *. set (nx := length x) in *.
  assert (DZ : Z.of_nat (length m) = Z.of_nat BS * Z.of_nat n + Z.of_nat nx) by lia.
  assert (Sh : Z.shiftl (Z.of_nat nx) 3 = 8 * Z.of_nat nx) by (rewrite Z.shiftl_mul_pow2 by lia; lia).
  assert (T8 : u64 (d_t d + 8 * Z.of_nat nx) = 8 * Z.of_nat (length m)).
  { rewrite H6, u64_add, u64_small; unfold w64_ok; rewrite ?DZ; lia. }
  assert (ELn : blen P (u64 (d_t d + 8 * Z.of_nat nx)) = z2be (2 * wb) (8 * Z.of_nat (length m))) by (rewrite T8; apply Hblen; lia).
  set (ln := z2be (2 * wb) (8 * Z.of_nat (length m))) in *.
  assert (Lln : length ln = (2 * wb)%nat) by apply z2be_length.
  assert (LF : length (full_blocks BS m) = n) by (unfold full_blocks; rewrite blocks_map, map_length, seq_length; reflexivity).
  (* the specification *)
  assert (SP : forall tl bl, BlakeSpec.padded V m = m ++ tl -> full_blocks BS (x ++ tl) = bl ->
    BlakeSpec.hash V s m = concat (map (z2be wb) (firstn (BlakeSpec.v_out V)
      (BlakeSpec.iterate V (Z.of_nat (length m)) s n bl (d_h d))))).
  { intros tl bl E1 E2. unfold BlakeSpec.hash. rewrite E1, bb_eq, Hb.
    rewrite (proj1 (full_blocks_app BS BP m tl)). fold x. rewrite E2, iterate_app, LF.
    rewrite (iterate_iter0 _ _ (full_blocks BS m)); [|lia|rewrite LF; lia]. rewrite <- H4. reflexivity. }
  assert (K : (Z.of_nat (BlakeSpec.block_bytes V) - 2 * Z.of_nat (BlakeSpec.v_bytes V) - 1 - Z.of_nat (length m)) mod Z.of_nat (BlakeSpec.block_bytes V)
    = (Z.of_nat E - Z.of_nat nx) mod Z.of_nat BS).
  { rewrite bb_eq, Hb, DZ. replace (Z.of_nat BS - 2 * Z.of_nat wb - 1) with (Z.of_nat E) by lia.
    replace (Z.of_nat E - (Z.of_nat BS * Z.of_nat n + Z.of_nat nx)) with (Z.of_nat E - Z.of_nat nx + (- Z.of_nat n) * Z.of_nat BS) by ring.
    apply Z_mod_plus_full. }
  assert (PD : forall k, Z.to_nat ((Z.of_nat E - Z.of_nat nx) mod Z.of_nat BS) = k -> BlakeSpec.padded V m =
    m ++ (match k with O => [0x80 + (if small then 0 else 1)] | S k' => [0x80] ++ repeat 0 k' ++ [if small then 0 else 1] end) ++ ln).
  { intros k Ek. unfold BlakeSpec.padded. cbv zeta. rewrite K, Ek, Hbit, Hb. reflexivity. }
  (* the code *)
  unfold bsum. cbv zeta. rewrite H7. fold nx. rewrite Sh, ELn, Hedge, H1, Hsmall. f_equal.
  destruct (Nat.eqb nx E) eqn:C1; [|destruct (Nat.ltb nx E) eqn:C2].
  - (* nx = E *)
    apply Nat.eqb_eq in C1.
    assert (Kz : Z.to_nat ((Z.of_nat E - Z.of_nat nx) mod Z.of_nat BS) = 0%nat).
    { rewrite C1, Z.sub_diag, Z.mod_0_l by (clear - HE C1 Lx HE0 Hwb; lia). reflexivity. }
    set (b := x ++ [0x80 + (if small then 0 else 1)] ++ ln).
    assert (Lb : length b = BS) by (unfold b; rewrite !app_length, Lln; cbn [length]; fold nx; clear - HE C1 Lx HE0 Hwb; lia).
    rewrite (SP _ [b] (PD _ Kz) (one_block b Lb)). cbn [BlakeSpec.iterate].
    unfold n; rewrite (counter_last m) by (fold x; fold nx; clear - C1 HE0; lia).
    rewrite (bwrite_short _ [_]) by (cbn [set_t d_x length]; rewrite H7; fold nx; clear - HE C1 Lx HE0 Hwb; lia).
    rewrite (bwrite_block _ ln); cbn [set_t set_x d_x]; rewrite ?H7, ?app_length, ?Lln; cbn [length]; fold nx; [|clear - HE C1 Lx HE0 Hwb; lia|clear - HE C1 Lx HE0 Hwb; lia].
    assert (EB : (x ++ [if small then 128 else 129]) ++ ln = b) by (unfold b; rewrite <- app_assoc; destruct small; reflexivity).
    rewrite EB. match goal with |- context [bblock P ?dd b] => set (d1 := dd) end.
    cbn [set_x d_size d_h]. destruct (bblock_fields d1 b) as (-> & _).
    change (d_size d1) with (d_size d). rewrite H1, <- Hout.
    destruct (bblock_h d1 b H5 Hs') as [EH _]. cbn [set_x d_h]. rewrite EH.
    change (d_h d1) with (d_h d). change (d_s d1) with (d_s d). rewrite H2.
    replace (tcount d1) with (8 * Z.of_nat (length m)); [reflexivity|].
    unfold tcount. change (d_nullt d1) with (d_nullt d). rewrite H3. unfold d1. cbn [set_t set_x d_t].
    rewrite u64_sub, u64_add, Hlbits, Hbits. rewrite <- T8. f_equal. rewrite C1. clear - HE C1 Lx HE0 Hwb; lia.
  - (* nx < E *)
    apply Nat.ltb_lt in C2.
    assert (Kz : Z.to_nat ((Z.of_nat E - Z.of_nat nx) mod Z.of_nat BS) = S (E - nx - 1)%nat).
    { rewrite Z.mod_small by (clear - HE C2 Lx HE200 Hwb; lia). clear - C2; lia. }
    set (b := x ++ ([0x80] ++ repeat 0 (E - nx - 1) ++ [if small then 0 else 1]) ++ ln).
    assert (Lb : length b = BS) by (unfold b; rewrite !app_length, Lln, repeat_length; cbn [length]; fold nx; clear - HE C2 Lx HE200 Hwb; lia).
    rewrite (SP _ [b] (PD _ Kz) (one_block b Lb)). cbn [BlakeSpec.iterate].
    set (dn := if Nat.eqb nx 0 then set_null d else d).
    assert (N1 : d_x dn = x) by (unfold dn; destruct (Nat.eqb nx 0); exact H7).
    assert (N2 : d_t dn = d_t d) by (unfold dn; destruct (Nat.eqb nx 0); reflexivity).
    assert (N3 : d_h dn = d_h d) by (unfold dn; destruct (Nat.eqb nx 0); reflexivity).
    assert (N4 : d_s dn = d_s d) by (unfold dn; destruct (Nat.eqb nx 0); reflexivity).
    assert (N5 : d_size dn = d_size d) by (unfold dn; destruct (Nat.eqb nx 0); reflexivity).
    assert (N6 : d_nullt dn = Nat.eqb nx 0) by (unfold dn; destruct (Nat.eqb nx 0); [reflexivity|exact H3]).
    rewrite bpad_0 by (clear - HE C2 Lx HE200 Hwb; lia).
    assert (Lp : length (128 :: repeat 0 (E - nx - 1)) = (E - nx)%nat) by (cbn [length]; rewrite repeat_length; clear - HE C2 Lx HE200 Hwb; lia).
    set (pd := 128 :: repeat 0 (E - nx - 1)) in *.
    rewrite (bwrite_short _ pd) by (cbn [set_t d_x]; rewrite N1, Lp; fold nx; clear - HE C2 Lx HE200 Hwb; lia).
    cbn [set_t d_x]. rewrite N1.
    rewrite (bwrite_short _ [_]) by (cbn [set_t set_x d_x length]; rewrite app_length, Lp; fold nx; clear - HE C2 Lx HE200 Hwb; lia).
    rewrite (bwrite_block _ ln); cbn [set_t set_x d_x]; rewrite ?app_length, ?Lln, ?Lp; cbn [length]; fold nx; [|clear - HE C2 Lx HE200 Hwb; lia|clear - HE C2 Lx HE200 Hwb; lia].
    assert (EB : ((x ++ pd) ++ [if small then 0 else 1]) ++ ln = b).
    { unfold b, pd. rewrite <- !app_assoc. destruct small; reflexivity. }
    rewrite EB. match goal with |- context [bblock P ?dd b] => set (d1 := dd) end.
    cbn [set_x d_size d_h]. destruct (bblock_fields d1 b) as (-> & _).
    change (d_size d1) with (d_size dn). rewrite N5, H1, <- Hout.
    assert (hvec (d_h d1)) as Hv1 by (change (d_h d1) with (d_h dn); rewrite N3; exact H5).
    assert (svec (d_s d1)) as Hs1 by (change (d_s d1) with (d_s dn); rewrite N4; exact Hs').
    destruct (bblock_h d1 b Hv1 Hs1) as [EH _]. cbn [set_x d_h]. rewrite EH.
    change (d_h d1) with (d_h dn). change (d_s d1) with (d_s dn). rewrite N3, N4, H2.
    replace (tcount d1) with (BlakeSpec.counter V (Z.of_nat (length m)) n); [reflexivity|].
    unfold tcount. change (d_nullt d1) with (d_nullt dn). rewrite N6.
    destruct (Nat.eqb nx 0) eqn:C3.
    + apply Nat.eqb_eq in C3. apply counter_zero. clear - D C3; lia.
    + apply Nat.eqb_neq in C3. unfold n. rewrite counter_last by (fold x; fold nx; clear - C3; lia).
      unfold d1. cbn [set_t set_x d_t]. rewrite N2.
      rewrite !u64_sub, u64_add, u64_sub2, Hlbits, Hbits, Hebits. rewrite <- T8. f_equal. clear - HE C2 Lx HE200 Hwb; lia.
  - (* nx > E *)
    apply Nat.eqb_neq in C1. apply Nat.ltb_ge in C2.
    assert (Kz : Z.to_nat ((Z.of_nat E - Z.of_nat nx) mod Z.of_nat BS) = S (BS - nx - 1 + E)%nat).
    { replace (Z.of_nat E - Z.of_nat nx) with (Z.of_nat (BS - nx + E) + (-1) * Z.of_nat BS) by (clear - HE C1 C2 Lx HE200 Hwb; lia).
      rewrite Z_mod_plus_full, Z.mod_small by (clear - HE C1 C2 Lx HE200 Hwb; lia). clear - HE C1 C2 Lx; lia. }
    rewrite bpad_0, bpad_1 by (clear - HE C1 C2 Lx HE200 Hwb; lia).
    assert (Lp : length (128 :: repeat 0 (BS - nx - 1)) = (BS - nx)%nat) by (cbn [length]; rewrite repeat_length; clear - HE C1 C2 Lx HE200 Hwb; lia).
    set (pd := 128 :: repeat 0 (BS - nx - 1)) in *.
    set (b1 := x ++ pd). set (b2 := repeat 0 E ++ [if small then 0 else 1] ++ ln).
    assert (Lb1 : length b1 = BS) by (unfold b1; rewrite app_length, Lp; fold nx; clear - HE C1 C2 Lx HE200 Hwb; lia).
    assert (Lb2 : length b2 = BS) by (unfold b2; rewrite !app_length, Lln, repeat_length; cbn [length]; clear - HE C1 C2 Lx HE200 Hwb; lia).
    assert (EBL : full_blocks BS (x ++ ([0x80] ++ repeat 0 (BS - nx - 1 + E) ++ [if small then 0 else 1]) ++ ln) = [b1; b2]).
    { replace (x ++ _) with (b1 ++ b2).
      - rewrite (proj1 (full_blocks_cons BS BP b1 b2 Lb1)), (one_block b2 Lb2). reflexivity.
      - unfold b1, b2, pd. rewrite repeat_app, <- !app_assoc. reflexivity. }
    rewrite (SP _ [b1; b2] (PD _ Kz) EBL). cbn [BlakeSpec.iterate].
    rewrite (bwrite_block (set_t d (d_t d - (bp_bits P - 8 * Z.of_nat nx))) pd);
      cbn [set_t d_x]; rewrite ?H7, ?Lp; fold nx; [|clear - HE C1 C2 Lx HE200 Hwb; lia|clear - HE C1 C2 Lx HE200 Hwb; lia].
    fold b1. match goal with |- context [bblock P ?dd b1] => set (d1 := dd) end.
    destruct (bblock_h d1 b1 H5 Hs') as [EH1 Hv1].
    set (d2 := bblock P d1 b1) in *.
    assert (Z2 : d_size d2 = d_size d) by reflexivity.
    assert (S2 : d_s d2 = d_s d) by reflexivity.
    clearbody d2. cbn [set_x d_size d_h d_s d_t d_nullt d_x].
    rewrite (bwrite_short _ (repeat 0 E)) by (cbn [set_t set_x d_x length]; rewrite repeat_length; clear - HE C1 C2 Lx HE200 Hwb; lia).
    cbn [set_t set_x set_null d_size d_h d_s d_t d_nullt d_x].
    rewrite (bwrite_short _ [_]) by (cbn [set_t set_null set_x d_x app length]; rewrite ?app_length, repeat_length; clear - HE C1 C2 Lx HE200 Hwb; lia).
    cbn [set_t set_x set_null d_size d_h d_s d_t d_nullt d_x].
    rewrite (bwrite_block _ ln); cbn [set_t set_x set_null d_x app]; rewrite ?app_length, ?repeat_length, ?Lln; cbn [length]; [|clear - HE C1 C2 Lx HE200 Hwb; lia|clear - HE C1 C2 Lx HE200 Hwb; lia].
    replace (((repeat 0 E) ++ [if small then 0 else 1]) ++ ln) with b2 by (unfold b2; rewrite <- app_assoc; reflexivity).
    match goal with |- context [bblock P ?dd b2] => set (d3 := dd) end.
    assert (hvec (d_h d3)) as Hv3 by exact Hv1.
    assert (svec (d_s d3)) as Hs3 by (change (d_s d3) with (d_s d2); rewrite S2; exact Hs').
    destruct (bblock_h d3 b2 Hv3 Hs3) as [EH3 _].
    destruct (bblock_fields d3 b2) as (Z3 & _).
    cbn [set_x d_size d_h]. rewrite Z3, EH3. change (d_size d3) with (d_size d2). rewrite Z2, H1, <- Hout.
    change (d_h d3) with (d_h d2). change (d_s d3) with (d_s d2). rewrite S2, EH1, H2.
    change (tcount d3) with 0. change (d_h d1) with (d_h d). change (d_s d1) with (d_s d). rewrite H2.
    rewrite (counter_zero m (S n)) by (clear - D Lx; lia). unfold n. rewrite (counter_last m) by (fold x; fold nx; clear - C1 C2 HE0; lia). fold n.
    replace (tcount d1) with (8 * Z.of_nat (length m)); [reflexivity|].
    unfold tcount. change (d_nullt d1) with (d_nullt d). rewrite H3. unfold d1. cbn [set_t d_t].
    rewrite u64_add, Hbits, <- T8. f_equal. clear - HE C1 C2 Lx HE200 Hwb; lia.
Qed.

(** Any sequence of writes, then Sum. *)
Theorem bstream s ps inp : svec s -> 8 * Z.of_nat (length (concat ps)) < 2 ^ 64 ->
  bsum P (fold_left (bwrite P) ps (with_salt s)) inp = inp ++ BlakeSpec.hash V s (concat ps).
Proof using All.
  intros Hs L. apply bsum_eq; [exact Hs| |exact L]. apply (bholds_writes s ps Hs (with_salt s) []). apply bholds_new.
Qed.
Lemma breset_eq s d m : bholds s d m -> breset P d = with_salt s.
Proof using All.
  intros (H1 & H2 & _). unfold breset, with_salt. rewrite H1, H2, Hsmall. destruct small; reflexivity.
Qed.
(** Everything about one function: a relation between the object and what has been
    written, kept by the calls. *)
Definition behaves (s : list Z) (R : digest -> bytes -> Prop) : Prop :=
  R (with_salt s) [] /\
  (forall d m p, R d m -> R (bwrite P d p) (m ++ p)) /\
  (forall d m inp, R d m -> 8 * Z.of_nat (length m) < 2 ^ 64 -> bsum P d inp = inp ++ BlakeSpec.hash V s m) /\
  (forall d m, R d m -> R (breset P d) []) /\
  (forall d d' m, R d m -> R d' m -> d = d').
Theorem ball s : svec s -> behaves s (bholds s).
Proof using All.
  intros Hs. split; [apply bholds_new|]. split; [intros d m p H; now apply bholds_write|]. split.
  - intros d m inp H L. now apply bsum_eq.
  - split.
    + intros d m H. rewrite (breset_eq s d m H). apply bholds_new.
    + intros [a b c d e f] [a' b' c' d' e' f'] m H H'. unfold bholds in H, H'. cbn [d_size d_h d_s d_t d_nullt d_x] in H, H'.
      destruct H as (-> & -> & -> & -> & _ & -> & ->). destruct H' as (-> & -> & -> & -> & _ & -> & ->). reflexivity.
Qed.
End Blake.

(** ** The four functions *)
Lemma blen256 l : 0 <= l < 2 ^ 64 -> blen blake256_params l = z2be (2 * 4) l.
Proof. intros _. exact (len_bytes l). Qed.
Lemma z2be_hi n k l : 0 <= l < 256 ^ Z.of_nat n -> z2be (k + n) l = repeat 0 k ++ z2be n l.
Proof.
  intros H. assert (G : forall n k l, 0 <= l < 256 ^ Z.of_nat n -> z2le (k + n) l = z2le n l ++ repeat 0 k).
  { clear. induction n as [|n IH]; intros k l H.
    - rewrite Nat.add_0_r. change (256 ^ Z.of_nat 0) with 1 in H. assert (l = 0) by lia. subst l. clear H. cbn [app z2le].
      induction k as [|k IH]; [reflexivity|]. cbn [z2le repeat]. change (0 / 256) with 0. rewrite IH. reflexivity.
    - rewrite Nat.add_succ_r. cbn [z2le app]. rewrite IH; [reflexivity|].
      rewrite Nat2Z.inj_succ, Z.pow_succ_r in H by lia.
      split; [apply Z.div_pos; lia|apply Z.div_lt_upper_bound; lia]. }
  unfold z2be. rewrite (G n k l H), rev_app_distr. f_equal.
  clear. assert (R : forall k, rev (repeat 0 k) = repeat (0:Z) k).
  { clear. induction k as [|k IH]; [reflexivity|]. cbn [repeat rev]. rewrite IH. symmetry. apply repeat_cons. }
  apply R.
Qed.
Lemma blen512 l : 0 <= l < 2 ^ 64 -> blen blake512_params l = z2be (2 * 8) l.
Proof.
  intros H. change (2 * 8)%nat with (8 + 8)%nat. rewrite z2be_hi by (change (256 ^ Z.of_nat 8) with (2 ^ 64); exact H).
  unfold blen. change (bp_len_bytes blake512_params - 8)%nat with 8%nat. f_equal. exact (len_bytes l).
Qed.
Lemma thigh256 t : 0 <= t < 2 ^ 64 -> bp_t_high blake256_params t = (t / 2 ^ 32) mod 2 ^ 32.
Proof.
  intros H. cbn [bp_t_high blake256_params]. rewrite Z.shiftr_div_pow2 by lia. symmetry. apply Z.mod_small.
  split; [apply Z.div_pos; lia|apply Z.div_lt_upper_bound; lia].
Qed.
Lemma thigh512 t : 0 <= t < 2 ^ 64 -> bp_t_high blake512_params t = (t / 2 ^ 64) mod 2 ^ 64.
Proof. intros H. cbn [bp_t_high blake512_params]. rewrite Z.div_small by lia. reflexivity. Qed.

Lemma words_dec W l : forallb (fun x => (0 <=? x) && (x <? 2 ^ W)) l = true -> Forall (word W) l.
Proof.
  intros H. apply Forall_forall. intros x Hx. rewrite forallb_forall in H. apply H in Hx.
  apply andb_true_iff in Hx. destruct Hx as [A B]. apply Z.leb_le in A. apply Z.ltb_lt in B. split; assumption.
Qed.

Definition params_of (wide : bool) : blake_params := if wide then blake512_params else blake256_params.
Definition variant_of (wide small : bool) : BlakeSpec.variant :=
  if wide then (if small then BlakeSpec.blake384 else BlakeSpec.blake512)
  else if small then BlakeSpec.blake224 else BlakeSpec.blake256.

Theorem blake_all (wide small : bool) s : length s = 4%nat -> Forall (word (bp_W (params_of wide))) s ->
  exists R, behaves (params_of wide) (variant_of wide small) small s R.
Proof.
  intros Ls Fs. destruct wide.
  - eexists. apply (ball blake512_params (variant_of true small) 32 25 16 11 111 small); cbn [bp_W bp_wb bp_block params_of blake512_params] in *;
      try (destruct small; exact blake512_code_eq); try lia; try reflexivity; try (destruct small; reflexivity).
    + apply words_dec. vm_compute. reflexivity.
    + exact thigh512.
    + exact blen512.
    + destruct small; (split; [reflexivity|apply words_dec; vm_compute; reflexivity]).
    + split; assumption.
  - eexists. apply (ball blake256_params (variant_of false small) 16 12 8 7 55 small); cbn [bp_W bp_wb bp_block params_of blake256_params] in *;
      try (destruct small; exact blake256_code_eq); try lia; try reflexivity; try (destruct small; reflexivity).
    + apply words_dec. vm_compute. reflexivity.
    + exact thigh256.
    + exact blen256.
    + destruct small; (split; [reflexivity|apply words_dec; vm_compute; reflexivity]).
    + split; assumption.
Qed.
