(** The signed digit expansions of edwards25519.go: slide (sliding window, odd
    digits up to 15) and the radix-16 recoding. *)
Require Import ZArith List Lia Bool Znumtheory.
Require Import Verif.Base Verif.Words Verif.ModelSlp Verif.ModelEdCode Verif.ModelEd Verif.ProofSlp.
Import ListNotations.
Open Scope Z_scope.

(** the number with digits r, least significant first, in base w *)
Fixpoint hval (w : Z) (r : list Z) : Z := match r with [] => 0 | x :: t => x + w * hval w t end.

Lemma hval_upd w : forall r i v, (i < length r)%nat -> hval w (upd i v r) = hval w r + w ^ Z.of_nat i * (v - nth i r 0).
Proof.
  induction r as [|x r IH]; intros i v Hi; [cbn in Hi; lia|].
  destruct i as [|i]; cbn [upd hval nth].
  - change (w ^ Z.of_nat 0) with 1. lia.
  - rewrite IH by (cbn in Hi; lia). rewrite Nat2Z.inj_succ, Z.pow_succ_r by lia. ring.
Qed.
Lemma hval_app w a b : hval w (a ++ b) = hval w a + w ^ Z.of_nat (length a) * hval w b.
Proof.
  induction a as [|x a IH]; cbn [app hval length].
  - change (w ^ Z.of_nat 0) with 1. lia.
  - rewrite IH, Nat2Z.inj_succ, Z.pow_succ_r by lia. ring.
Qed.

(** ** Bits *)
Lemma nth_le2z a j : bytes_ok a -> nth j a 0 = (le2z a / 256 ^ Z.of_nat j) mod 256.
Proof.
  intros H. revert j. induction H as [|b l Hb Hl IH]; intros j.
  - cbn [le2z]. rewrite Z.div_0_l by (apply Z.pow_nonzero; lia). destruct j; reflexivity.
  - destruct j as [|j]; cbn [nth le2z].
    + change (256 ^ Z.of_nat 0) with 1. rewrite Z.div_1_r, Z.mul_comm, Z.mod_add by lia. unfold byte_ok in Hb. now rewrite Z.mod_small by lia.
    + rewrite IH, Nat2Z.inj_succ, Z.pow_succ_r by lia. f_equal. unfold byte_ok in Hb.
      rewrite <- Z.div_div by (try lia; apply Z.pow_pos_nonneg; lia). f_equal.
      rewrite Z.mul_comm, Z.div_add, Z.div_small by lia. reflexivity.
Qed.
Lemma bit_at a i : bytes_ok a ->
  Z.land 1 (Z.shiftr (nth (i / 8) a 0) (Z.of_nat (i mod 8))) = (le2z a / 2 ^ Z.of_nat i) mod 2.
Proof.
  intros H. rewrite nth_le2z by exact H.
  set (A := le2z a). clearbody A. pose proof (Nat.mod_upper_bound i 8 ltac:(lia)) as Hm.
  set (m := (i mod 8)%nat) in *. set (j := (i / 8)%nat) in *.
  assert (Ei : Z.of_nat i = 8 * Z.of_nat j + Z.of_nat m). { pose proof (Nat.div_mod i 8 ltac:(lia)). fold m j in H0. lia. }
  rewrite Z.land_comm. change 1 with (Z.ones 1). rewrite Z.land_ones by lia. change (2 ^ 1) with 2.
  rewrite Z.shiftr_div_pow2 by lia.
  rewrite Ei, Z.pow_add_r, Z.pow_mul_r by lia. change (2 ^ 8) with 256.
  rewrite <- Z.div_div by (try apply Z.pow_nonzero; try apply Z.pow_pos_nonneg; lia).
  set (B := A / 256 ^ Z.of_nat j). clearbody B. clear Ei. clearbody j m.
  assert (E : 256 = 2 ^ Z.of_nat m * 2 ^ (8 - Z.of_nat m)) by (rewrite <- Z.pow_add_r by lia; replace (Z.of_nat m + (8 - Z.of_nat m)) with 8 by lia; reflexivity).
  rewrite E. rewrite Z.rem_mul_r by (try apply Z.pow_nonzero; try apply Z.pow_pos_nonneg; lia).
  rewrite (Z.mul_comm (2 ^ Z.of_nat m)), Z.div_add by (apply Z.pow_nonzero; lia).
  rewrite Z.div_small by (apply Z.mod_pos_bound, Z.pow_pos_nonneg; lia). rewrite Z.add_0_l.
  symmetry. apply Zmod_div_mod; [lia|apply Z.pow_pos_nonneg; lia|].
  exists (2 ^ (7 - Z.of_nat m)). rewrite Z.mul_comm, <- Z.pow_succ_r by lia. f_equal. lia.
Qed.
Lemma bits_val A n : forall k, 0 <= A -> hval 2 (map (fun i => (A / 2 ^ Z.of_nat i) mod 2) (seq k n)) = (A / 2 ^ Z.of_nat k) mod 2 ^ Z.of_nat n.
Proof.
  induction n as [|n IH]; intros k HA; cbn [seq map hval].
  - change (2 ^ Z.of_nat 0) with 1. now rewrite Z.mod_1_r.
  - rewrite (IH (S k) HA). rewrite (Nat2Z.inj_succ n), Z.pow_succ_r by lia.
    rewrite Z.rem_mul_r by (try lia; apply Z.pow_pos_nonneg; lia). f_equal. f_equal. f_equal.
    rewrite (Nat2Z.inj_succ k), Z.pow_succ_r, Z.mul_comm by lia. symmetry. apply Z.div_div; [apply Z.pow_nonzero|]; lia.
Qed.
Lemma map_ext_seq {A} (f g : nat -> A) l : (forall i, f i = g i) -> map f l = map g l.
Proof. intros H. now apply map_ext. Qed.
Lemma slide_init_eq a : bytes_ok a -> slide_init a = map (fun i => (le2z a / 2 ^ Z.of_nat i) mod 2) (seq 0 256).
Proof. intros H. unfold slide_init. apply map_ext. intros i. now apply bit_at. Qed.
Lemma slide_init_val a : bytes_ok a -> length a = 32%nat -> hval 2 (slide_init a) = le2z a.
Proof.
  intros H HL. rewrite slide_init_eq by exact H. rewrite bits_val by (now apply le2z_nonneg).
  change (2 ^ Z.of_nat 0) with 1. rewrite Z.div_1_r. pose proof (le2z_bound a H) as B. rewrite HL in B.
  apply Z.mod_small. exact B.
Qed.
Lemma slide_init_bit a k : bytes_ok a -> nth k (slide_init a) 0 = 0 \/ nth k (slide_init a) 0 = 1.
Proof.
  intros H. rewrite slide_init_eq by exact H. destruct (Nat.lt_ge_cases k 256) as [L|L].
  - rewrite (nth_indep _ 0 ((le2z a / 2 ^ Z.of_nat 0) mod 2)) by (rewrite map_length, seq_length; exact L).
    rewrite (map_nth (fun i => (le2z a / 2 ^ Z.of_nat i) mod 2)).
    pose proof (Z.mod_pos_bound (le2z a / 2 ^ Z.of_nat (nth k (seq 0 256) 0%nat)) 2 ltac:(lia)). lia.
  - left. apply nth_overflow. rewrite map_length, seq_length. exact L.
Qed.
Lemma slide_init_top a : bytes_ok a -> le2z a < 2 ^ 255 -> nth 255 (slide_init a) 0 = 0.
Proof.
  intros H HB. rewrite slide_init_eq by exact H.
  rewrite (nth_indep _ 0 ((le2z a / 2 ^ Z.of_nat 0) mod 2)) by (rewrite map_length, seq_length; lia).
  rewrite (map_nth (fun i => (le2z a / 2 ^ Z.of_nat i) mod 2)), seq_nth by lia. cbn [Nat.add].
  rewrite Z.div_small; [reflexivity|]. split; [now apply le2z_nonneg|exact HB].
Qed.

(** ** slide *)
Definition bit (x : Z) : Prop := x = 0 \/ x = 1.
Definition dig (x : Z) : Prop := x = 0 \/ (-15 <= x <= 15 /\ x mod 2 = 1).

Lemma i8_id x : - 128 <= x < 128 -> i8 x = x.
Proof. intros H. apply sgn_id; [lia|]. exact H. Qed.

Lemma carry_ok : forall fuel k r, fuel = (256 - k)%nat -> (k <= 255)%nat -> length r = 256%nat ->
  (forall j, (k <= j < 256)%nat -> bit (nth j r 0)) -> nth 255 r 0 = 0 ->
  let r' := slide_carry fuel k r in
  length r' = 256%nat /\ hval 2 r' = hval 2 r + 2 ^ Z.of_nat k /\
  (forall j, (j < k)%nat -> nth j r' 0 = nth j r 0) /\
  (forall j, (k <= j < 256)%nat -> bit (nth j r' 0)) /\
  (nth 255 r' 0 = 0 \/ forall j, (k <= j < 255)%nat -> nth j r' 0 = 0).
Proof.
  induction fuel as [|fuel IH]; intros k r Hf Hk HL HB HT; [lia|].
  cbn [slide_carry]. cbv zeta. destruct (Z.eqb_spec (nth k r 0) 0) as [E|E].
  - rewrite upd_length. split; [exact HL|]. split; [rewrite hval_upd by lia; rewrite E; ring|].
    split; [intros j Hj; apply nth_upd_ne; lia|].
    split.
    + intros j Hj. rewrite nth_upd by lia. destruct (Nat.eqb_spec k j); [right; reflexivity|apply HB; lia].
    + destruct (Nat.eq_dec k 255) as [->|N]; [right; intros j Hj; lia|].
      left. rewrite nth_upd_ne by lia. exact HT.
  - assert (Ek : nth k r 0 = 1) by (destruct (HB k ltac:(lia)); [contradiction|assumption]).
    assert (Hk' : (k < 255)%nat). { destruct (Nat.eq_dec k 255) as [->|N]; [congruence|lia]. }
    destruct (IH (S k) (upd k 0 r)) as (A & B & C & D & F).
    + lia.
    + lia.
    + now rewrite upd_length.
    + intros j Hj. rewrite nth_upd_ne by lia. apply HB. lia.
    + rewrite nth_upd_ne by lia. exact HT.
    + cbv zeta in *. split; [exact A|]. split.
      * rewrite B, hval_upd, Ek by lia. rewrite Nat2Z.inj_succ, Z.pow_succ_r by lia. ring.
      * split; [intros j Hj; rewrite C by lia; apply nth_upd_ne; lia|].
        assert (Ck : nth k (slide_carry fuel (S k) (upd k 0 r)) 0 = 0) by (rewrite C by lia; apply nth_upd_same; lia).
        split.
        -- intros j Hj. destruct (Nat.eq_dec j k) as [->|N]; [left; exact Ck|apply D; lia].
        -- destruct F as [F|F]; [left; exact F|right]. intros j Hj.
           destruct (Nat.eq_dec j k) as [->|N]; [exact Ck|apply F; lia].
Qed.

(** what the loop over b leaves behind *)
Definition post (i : nat) (r r' : list Z) : Prop :=
  length r' = 256%nat /\ hval 2 r' = hval 2 r /\
  (forall j, (j < i)%nat -> nth j r' 0 = nth j r 0) /\
  dig (nth i r' 0) /\
  (forall j, (i < j < 256)%nat -> bit (nth j r' 0)) /\
  (nth 255 r' 0 = 0 \/ forall j, (i < j < 255)%nat -> nth j r' 0 = 0).

Lemma sh_id b : (b <= 6)%nat -> i8 (Z.shiftl 1 (Z.of_nat b)) = 2 ^ Z.of_nat b.
Proof. intros H. rewrite Z.shiftl_1_l. do 7 (destruct b as [|b]; [reflexivity|]). lia. Qed.

(** after a subtraction the loop only looks for the next non-zero digit *)
Lemma slide_b_neg i r0 : forall bs r, (forall b, In b bs -> (5 <= b <= 6)%nat) -> post i r0 r ->
  -15 <= nth i r 0 < 0 -> post i r0 (slide_b bs i r).
Proof.
  induction bs as [|b bs IH]; intros r Hb Hp Hn; cbn [slide_b]; [exact Hp|].
  destruct (Nat.ltb_spec (i + b) 256) as [L|L]; [|exact Hp].
  specialize (Hb b (or_introl eq_refl)) as Hb0.
  assert (Hb' : forall x, In x bs -> (5 <= x <= 6)%nat) by (intros x Hx; apply Hb; now right).
  destruct (Z.eqb_spec (nth (i + b) r 0) 0) as [E|E]; [now apply IH|].
  destruct Hp as (P1 & P2 & P3 & P4 & P5 & P6).
  destruct (P5 (i + b)%nat ltac:(lia)) as [E'|E']; [contradiction|]. rewrite E', sh_id by lia. cbv zeta.
  assert (S : 2 ^ Z.of_nat b = 32 \/ 2 ^ Z.of_nat b = 64). { assert (b = 5 \/ b = 6)%nat as [->| ->] by lia; [left|right]; reflexivity. }
  rewrite !i8_id by lia.
  destruct (Z.leb_spec (nth i r 0 + 2 ^ Z.of_nat b) 15); [lia|].
  destruct (Z.leb_spec (-15) (nth i r 0 - 2 ^ Z.of_nat b)); [lia|].
  exact (conj P1 (conj P2 (conj P3 (conj P4 (conj P5 P6))))).
Qed.

Lemma slide_b_pos i r0 : (i < 255)%nat -> length r0 = 256%nat -> nth 255 r0 0 = 0 ->
  forall n b r, (b + n = 7)%nat -> (1 <= b)%nat ->
  post i r0 r -> nth 255 r 0 = 0 ->
  1 <= nth i r 0 <= 15 -> nth i r 0 < 2 ^ Z.of_nat b -> nth i r 0 mod 2 = 1 ->
  (forall j, (i < j < i + b)%nat -> nth j r 0 = 0) ->
  post i r0 (slide_b (seq b n) i r).
Proof.
  intros Hi HL0 HT0. induction n as [|n IH]; intros b r Hn Hb Hp HT Hr Hr2 Hodd Hz; cbn [seq slide_b]; [exact Hp|].
  destruct (Nat.ltb_spec (i + b) 256) as [L|L]; [|exact Hp].
  pose proof Hp as (P1 & P2 & P3 & P4 & P5 & P6).
  assert (Hpow : 2 ^ Z.of_nat (S b) = 2 * 2 ^ Z.of_nat b) by (rewrite Nat2Z.inj_succ, Z.pow_succ_r by lia; reflexivity).
  assert (Pev : exists q, 2 ^ Z.of_nat b = 2 * q).
  { exists (2 ^ (Z.of_nat b - 1)). rewrite <- Z.pow_succ_r by lia. f_equal. lia. }
  assert (B64 : 2 <= 2 ^ Z.of_nat b <= 64).
  { change 2 with (2 ^ 1) at 1. change 64 with (2 ^ 6). split; apply Z.pow_le_mono_r; lia. }
  destruct (Z.eqb_spec (nth (i + b) r 0) 0) as [E|E].
  - apply IH; auto; try lia. intros j Hj. destruct (Nat.eq_dec j (i + b)) as [->|N]; [exact E|apply Hz; lia].
  - destruct (P5 (i + b)%nat ltac:(lia)) as [E'|E']; [contradiction|]. rewrite E', sh_id by lia. cbv zeta.
    assert (N255 : (i + b < 255)%nat). { destruct (Nat.eq_dec (i + b) 255) as [Q|Q]; [rewrite Q in E'; congruence|lia]. }
    rewrite !i8_id by lia.
    destruct (Z.leb_spec (nth i r 0 + 2 ^ Z.of_nat b) 15) as [A|A].
    + set (v := nth i r 0 + 2 ^ Z.of_nat b) in *.
      set (r1 := upd (i + b) 0 (upd i v r)).
      assert (Nth : forall j, nth j r1 0 = if Nat.eqb (i + b) j then 0 else if Nat.eqb i j then v else nth j r 0).
      { intros j. unfold r1. rewrite nth_upd by (rewrite upd_length; lia). rewrite nth_upd by lia. reflexivity. }
      assert (Vi : nth i r1 0 = v).
      { rewrite Nth. destruct (Nat.eqb_spec (i + b) i); [lia|]. now rewrite Nat.eqb_refl. }
      assert (Vo : v mod 2 = 1). { destruct Pev as [q Eq]. unfold v. rewrite Eq, Z.mul_comm, Z.mod_add by lia. exact Hodd. }
      assert (Hv : hval 2 r1 = hval 2 r).
      { unfold r1. rewrite hval_upd by (rewrite upd_length; lia). rewrite nth_upd_ne by lia. rewrite E', hval_upd by lia.
        unfold v. rewrite Nat2Z.inj_add, Z.pow_add_r by lia. ring. }
      assert (Hp1 : post i r0 r1).
      { unfold post. split; [unfold r1; now rewrite !upd_length|]. split; [rewrite Hv; exact P2|].
        split. { intros j Hj. rewrite Nth. destruct (Nat.eqb_spec (i + b) j); [lia|]. destruct (Nat.eqb_spec i j); [lia|]. now apply P3. }
        split. { rewrite Vi. right. split; [lia|exact Vo]. }
        split. { intros j Hj. rewrite Nth. destruct (Nat.eqb_spec (i + b) j); [now left|]. destruct (Nat.eqb_spec i j); [lia|]. now apply P5. }
        left. rewrite Nth. destruct (Nat.eqb_spec (i + b) 255); [reflexivity|]. destruct (Nat.eqb_spec i 255); [lia|exact HT]. }
      apply IH; auto; try lia.
      * rewrite Nth. destruct (Nat.eqb_spec (i + b) 255); [reflexivity|]. destruct (Nat.eqb_spec i 255); [lia|exact HT].
      * intros j Hj. rewrite Nth. destruct (Nat.eqb_spec (i + b) j); [reflexivity|]. destruct (Nat.eqb_spec i j); [lia|]. apply Hz. lia.
    + (* r_i + 2^b > 15 *)
      assert (B4 : (4 <= b)%nat).
      { destruct (Nat.lt_ge_cases b 4) as [Q|Q]; [|exact Q]. exfalso.
        assert (2 ^ Z.of_nat b <= 8). { change 8 with (2 ^ 3). apply Z.pow_le_mono_r; lia. } lia. }
      destruct (Z.leb_spec (-15) (nth i r 0 - 2 ^ Z.of_nat b)) as [C|C]; [|exact Hp].
      assert (Hb4 : b = 4%nat).
      { destruct (Nat.eq_dec b 4) as [Q|Q]; [exact Q|]. exfalso.
        assert (32 <= 2 ^ Z.of_nat b). { change 32 with (2 ^ 5). apply Z.pow_le_mono_r; lia. } lia. }
      subst b. change (2 ^ Z.of_nat 4) with 16 in *.
      set (v := nth i r 0 - 16) in *.
      destruct (carry_ok (256 - (i + 4)) (i + 4) (upd i v r)) as (D1 & D2 & D3 & D4 & D5).
      * reflexivity.
      * lia.
      * now rewrite upd_length.
      * intros j Hj. rewrite nth_upd_ne by lia. apply P5. lia.
      * rewrite nth_upd_ne by lia. exact HT.
      * cbv zeta in *. set (r1 := slide_carry (256 - (i + 4)) (i + 4) (upd i v r)) in *. clearbody r1.
        assert (Vi : nth i r1 0 = v) by (rewrite D3 by lia; apply nth_upd_same; lia).
        assert (n = 2)%nat by lia. subst n.
        apply slide_b_neg.
        -- intros b Hin. cbn in Hin. lia.
        -- unfold post. split; [exact D1|]. split.
           { rewrite D2, hval_upd by lia. rewrite <- P2. unfold v. rewrite Nat2Z.inj_add, Z.pow_add_r by lia. change (2 ^ Z.of_nat 4) with 16. ring. }
           split. { intros j Hj. rewrite D3 by lia. rewrite nth_upd_ne by lia. now apply P3. }
           split. { rewrite Vi. right. split; [lia|]. unfold v. replace (nth i r 0 - 16) with (nth i r 0 + (-8) * 2) by lia. rewrite Z.mod_add by lia. exact Hodd. }
           split. { intros j Hj. destruct (Nat.lt_ge_cases j (i + 4)) as [Q|Q]; [|apply D4; lia].
             rewrite D3 by lia. rewrite nth_upd_ne by lia. apply P5. lia. }
           destruct D5 as [D5|D5]; [left; exact D5|right]. intros j Hj.
           destruct (Nat.lt_ge_cases j (i + 4)) as [Q|Q]; [|apply D5; lia].
           rewrite D3 by lia. rewrite nth_upd_ne by lia. apply Hz. lia.
        -- rewrite Vi. lia.
Qed.

Definition inv (A : Z) (i : nat) (r : list Z) : Prop :=
  length r = 256%nat /\ hval 2 r = A /\ (forall j, (j < i)%nat -> dig (nth j r 0)) /\
  (forall j, (i <= j < 256)%nat -> bit (nth j r 0)) /\
  (nth 255 r 0 = 0 \/ forall j, (i <= j < 255)%nat -> nth j r 0 = 0).

Lemma slide_b_stop b bs i r : (256 <= i + b)%nat -> slide_b (b :: bs) i r = r.
Proof. intros H. cbn [slide_b]. destruct (Nat.ltb_spec (i + b) 256) as [L|L]; [lia|reflexivity]. Qed.
Lemma slide_i_ok A i r : (i < 256)%nat -> inv A i r -> inv A (S i) (slide_i r i).
Proof.
  intros Hi (H1 & H2 & H3 & H4 & H5). unfold slide_i. destruct (Z.eqb_spec (nth i r 0) 0) as [E|E].
  - split; [exact H1|]. split; [exact H2|].
    split. { intros j Hj. destruct (Nat.eq_dec j i) as [->|N]; [left; exact E|apply H3; lia]. }
    split; [intros j Hj; apply H4; lia|]. destruct H5 as [H5|H5]; [now left|right; intros j Hj; apply H5; lia].
  - assert (Ei : nth i r 0 = 1) by (destruct (H4 i ltac:(lia)); [contradiction|assumption]).
    assert (P0 : post i r r).
    { split; [exact H1|]. split; [reflexivity|]. split; [reflexivity|]. split; [rewrite Ei; right; split; [lia|reflexivity]|].
      split; [intros j Hj; apply H4; lia|]. destruct H5 as [H5|H5]; [now left|right; intros j Hj; apply H5; lia]. }
    assert (P : post i r (slide_b (seq 1 6) i r)).
    { destruct (Nat.eq_dec i 255) as [Q|N].
      - change (seq 1 6) with (1%nat :: seq 2 5). rewrite slide_b_stop by lia. exact P0.
      - assert (HT : nth 255 r 0 = 0). { destruct H5 as [H5|H5]; [exact H5|]. exfalso. apply E. apply H5. lia. }
        apply slide_b_pos; auto; try lia. }
    change [1; 2; 3; 4; 5; 6]%nat with (seq 1 6).
    destruct P as (P1 & P2 & P3 & P4 & P5 & P6).
    split; [exact P1|]. split; [rewrite P2; exact H2|].
    split. { intros j Hj. destruct (Nat.eq_dec j i) as [->|N]; [exact P4|]. rewrite P3 by lia. apply H3. lia. }
    split; [intros j Hj; apply P5; lia|]. destruct P6 as [P6|P6]; [now left|right; intros j Hj; apply P6; lia].
Qed.
Lemma slide_loop A : forall n i r, (i + n <= 256)%nat -> inv A i r -> inv A (i + n) (fold_left slide_i (seq i n) r).
Proof.
  induction n as [|n IH]; intros i r Hi H; cbn [seq fold_left].
  - rewrite Nat.add_0_r. exact H.
  - replace (i + S n)%nat with (S i + n)%nat by lia. apply IH; [lia|]. apply slide_i_ok; [lia|exact H].
Qed.
Theorem slide_ok a : bytes_ok a -> length a = 32%nat -> le2z a < 2 ^ 255 ->
  length (slide a) = 256%nat /\ hval 2 (slide a) = le2z a /\ forall j, dig (nth j (slide a) 0).
Proof.
  intros H HL HB.
  assert (I0 : inv (le2z a) 0 (slide_init a)).
  { split; [unfold slide_init; now rewrite map_length, seq_length|]. split; [now apply slide_init_val|].
    split; [intros j Hj; lia|]. split; [intros j _; now apply slide_init_bit|]. left. now apply slide_init_top. }
  unfold slide. pose proof (slide_loop _ 256 0 (slide_init a) (le_n 256) I0) as I1.
  set (r := fold_left slide_i (seq 0 256) (slide_init a)) in *. clearbody r.
  destruct I1 as (J1 & J2 & J3 & _). split; [exact J1|]. split; [exact J2|].
  intros j. destruct (Nat.lt_ge_cases j 256) as [L|L]; [apply J3; lia|]. left. apply nth_overflow. lia.
Qed.

(** ** radix 16 *)
Lemma nibbles_val a : bytes_ok a -> hval 16 (nibbles a) = le2z a.
Proof.
  induction 1 as [|b l Hb Hl IH]; [reflexivity|]. unfold nibbles in *. cbn [flat_map app hval le2z]. rewrite IH.
  unfold byte_ok in Hb. change 15 with (Z.ones 4). rewrite !Z.land_ones, Z.shiftr_div_pow2 by lia. change (2 ^ 4) with 16.
  rewrite (Z.mod_small (b / 16)) by (split; [apply Z.div_pos; lia|apply Z.div_lt_upper_bound; lia]).
  pose proof (Z.div_mod b 16 ltac:(lia)). lia.
Qed.
Lemma nibbles_length a : length (nibbles a) = (2 * length a)%nat.
Proof. induction a as [|b a IH]; [reflexivity|]. unfold nibbles in *. cbn [flat_map app length]. rewrite IH. lia. Qed.
Definition nib (x : Z) : Prop := 0 <= x <= 15.
Lemma nibbles_nib a : Forall nib (nibbles a).
Proof.
  induction a as [|b a IH]; [constructor|]. unfold nibbles in *. cbn [flat_map app].
  assert (N : forall x, nib (Z.land x 15)).
  { intros x. unfold nib. change 15 with (Z.ones 4) at 1 2. rewrite Z.land_ones by lia. pose proof (Z.mod_pos_bound x (2 ^ 4) ltac:(lia)). change (2 ^ 4) with 16 in *. lia. }
  constructor; [apply N|]. constructor; [apply N|exact IH].
Qed.
Lemma recode_cons x y t c : nib x -> 0 <= c <= 1 -> exists d c', recode (x :: y :: t) c = d :: recode (y :: t) c' /\
  -8 <= d <= 7 /\ 0 <= c' <= 1 /\ x + c = d + 16 * c'.
Proof.
  intros Hx Hc. unfold nib in Hx. exists (i8 (i8 (x + c) - i8 (Z.shiftl (Z.shiftr (i8 (i8 (x + c) + 8)) 4) 4))), (Z.shiftr (i8 (i8 (x + c) + 8)) 4).
  split; [reflexivity|]. rewrite (i8_id (x + c)) by lia. rewrite (i8_id (x + c + 8)) by lia.
  rewrite Z.shiftr_div_pow2, Z.shiftl_mul_pow2 by lia. change (2 ^ 4) with 16.
  pose proof (Z.div_mod (x + c + 8) 16 ltac:(lia)) as D. pose proof (Z.mod_pos_bound (x + c + 8) 16 ltac:(lia)) as M.
  set (q := (x + c + 8) / 16) in *. assert (0 <= q <= 1) by lia. rewrite (i8_id (q * 16)) by lia. rewrite i8_id by lia. lia.
Qed.
Lemma recode_ok : forall e c, e <> [] -> Forall nib e -> 0 <= c <= 1 ->
  length (recode e c) = length e /\ hval 16 (recode e c) = hval 16 e + c /\
  (forall j, (S j < length e)%nat -> -8 <= nth j (recode e c) 0 <= 7) /\
  0 <= nth (length e - 1) (recode e c) 0 <= 16.
Proof.
  induction e as [|x e IH]; intros c He HF Hc; [contradiction|]. inversion HF as [|x' e' Hx He']; subst.
  destruct e as [|y t].
  - cbn [recode length hval nth Nat.sub]. unfold nib in Hx. rewrite i8_id by lia. split; [reflexivity|]. split; [lia|]. split; [intros; lia|lia].
  - destruct (recode_cons x y t c Hx Hc) as (d & c' & E & Hd & Hc' & Ev). rewrite E.
    destruct (IH c' ltac:(discriminate) He' Hc') as (A & B & C & D). cbn [length] in *. split; [now rewrite A|].
    split. { cbn [hval]. rewrite B. cbn [hval]. lia. }
    split. { intros [|j] Hj; cbn [nth]; [lia|apply C; lia]. }
    replace (S (S (length t)) - 1)%nat with (S (S (length t) - 1)) by lia. cbn [nth]. exact D.
Qed.
