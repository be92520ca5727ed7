(** The unrolled rounds of the BLAKE packages compute the rounds of the
    specification. *)
From Coq Require Import ZArith List Bool Lia.
From Verif Require Import Base Words ModelBlakeCode ModelBlake SpecBlake.
Import ListNotations.
Open Scope Z_scope.

(** Reordering of halves that touch disjoint positions, for arbitrary functions
    in place of the arithmetic. *)
Definition pos := (nat * nat * nat * nat)%type.
Definition positions : list pos :=
  [(0, 4, 8, 12); (1, 5, 9, 13); (2, 6, 10, 14); (3, 7, 11, 15);
   (0, 5, 10, 15); (1, 6, 11, 12); (2, 7, 8, 13); (3, 4, 9, 14)]%nat.
Definition position (i : nat) : pos := nth i positions (0, 4, 8, 12)%nat.
(** The order of the halves in the code ([true]: the first half). *)
Definition order : list (nat * bool) :=
  [(0, true); (1, true); (2, true); (3, true); (2, false); (3, false); (1, false); (0, false);
   (4, true); (5, true); (6, true); (7, true); (6, false); (7, false); (5, false); (4, false)]%nat.
Definition std_order : list (nat * bool) :=
  [(0, true); (0, false); (1, true); (1, false); (2, true); (2, false); (3, true); (3, false);
   (4, true); (4, false); (5, true); (5, false); (6, true); (6, false); (7, true); (7, false)]%nat.
Section Abs.
Variable fA : bool -> nat -> Z -> Z -> Z.
Variables fB fC : bool -> nat -> Z -> Z -> Z -> Z -> Z.
Variable fD : bool -> nat -> Z -> Z -> Z -> Z.
Definition astep (v : list Z) (ib : nat * bool) : list Z :=
  let '(i, h) := ib in
  let '(a, b, c, d) := position i in
  upd (upd (upd (upd v a (fA h i (vget v a) (vget v b)))
                     b (fB h i (vget v a) (vget v b) (vget v c) (vget v d)))
                     c (fC h i (vget v a) (vget v b) (vget v c) (vget v d)))
                     d (fD h i (vget v a) (vget v b) (vget v d)).
Lemma reorder_half (l l' : list (nat * bool)) :
  (l, l') = ([(0, true); (1, true); (2, true); (3, true); (2, false); (3, false); (1, false); (0, false)]%nat,
             [(0, true); (0, false); (1, true); (1, false); (2, true); (2, false); (3, true); (3, false)]%nat) \/
  (l, l') = ([(4, true); (5, true); (6, true); (7, true); (6, false); (7, false); (5, false); (4, false)]%nat,
             [(4, true); (4, false); (5, true); (5, false); (6, true); (6, false); (7, true); (7, false)]%nat) ->
  forall v, length v = 16%nat -> fold_left astep l v = fold_left astep l' v /\ length (fold_left astep l v) = 16%nat.
Proof.
  intros H v L. do 16 (destruct v as [|? v]; [discriminate|]). destruct v; [|discriminate].
  destruct H as [H|H]; injection H as -> ->; split; lazy; reflexivity.
Qed.
Lemma reorder v : length v = 16%nat -> fold_left astep order v = fold_left astep std_order v.
Proof.
  intros L.
  change order with ([(0, true); (1, true); (2, true); (3, true); (2, false); (3, false); (1, false); (0, false)]%nat ++
                     [(4, true); (5, true); (6, true); (7, true); (6, false); (7, false); (5, false); (4, false)]%nat).
  change std_order with ([(0, true); (0, false); (1, true); (1, false); (2, true); (2, false); (3, true); (3, false)]%nat ++
                         [(4, true); (4, false); (5, true); (5, false); (6, true); (6, false); (7, true); (7, false)]%nat).
  rewrite !fold_left_app.
  destruct (reorder_half _ _ (or_introl eq_refl) v L) as [E1 L1]. rewrite E1 in *.
  exact (proj1 (reorder_half _ _ (or_intror eq_refl) _ L1)).
Qed.
End Abs.

Section W.
Variable W : Z.
Hypothesis HW : 0 < W.
Local Notation M := (2 ^ W).
Definition word (x : Z) : Prop := 0 <= x < M.

Lemma M_pos : 0 < M. Proof using HW. apply Z.pow_pos_nonneg; lia. Qed.
Lemma word_mod x : word (x mod M). Proof using HW. apply Z.mod_pos_bound, M_pos. Qed.
Lemma word_xor x y : word x -> word y -> word (Z.lxor x y). Proof using HW. apply lxor_bound. lia. Qed.

Definition ror_code (x r : Z) : Z := Z.lor (Z.shiftl x (W - r) mod M) (Z.shiftr x r).
Lemma ror_eq x r : 0 < r < W -> word x -> ror_code x r = BlakeSpec.ror W x r.
Proof using HW.
  intros Hr Hx. unfold ror_code, BlakeSpec.ror.
  pose proof (lor_shift_add W x (W - r) ltac:(lia) Hx) as E. replace (W - (W - r)) with r in E by lia. rewrite E, Z.add_comm. f_equal.
  rewrite (Z.div_mod x (2 ^ r)) at 1 by (apply Z.pow_nonzero; lia).
  replace ((2 ^ r * (x / 2 ^ r) + x mod 2 ^ r) * 2 ^ (W - r))
    with (x mod 2 ^ r * 2 ^ (W - r) + (x / 2 ^ r) * (2 ^ r * 2 ^ (W - r))) by ring.
  rewrite <- Z.pow_add_r by lia. replace (r + (W - r)) with W by lia. rewrite Z_mod_plus_full.
  apply Z.mod_small.
  pose proof (Z.mod_pos_bound x (2 ^ r) ltac:(apply Z.pow_pos_nonneg; lia)) as B.
  assert (E2 : M = 2 ^ r * 2 ^ (W - r)) by (rewrite <- Z.pow_add_r by lia; f_equal; lia).
  assert (P : 0 < 2 ^ (W - r)) by (apply Z.pow_pos_nonneg; lia). rewrite E2. split.
  - apply Z.mul_nonneg_nonneg; lia.
  - apply Z.mul_lt_mono_pos_r; lia.
Qed.
Lemma ror_word x r : 0 < r < W -> word x -> word (BlakeSpec.ror W x r).
Proof using HW.
  intros Hr Hx. rewrite <- ror_eq by assumption. apply lor_bound; [lia|apply word_mod|].
  rewrite Z.shiftr_div_pow2 by lia. assert (0 < 2 ^ r) by (apply Z.pow_pos_nonneg; lia). unfold word in Hx.
  split; [apply Z.div_pos; lia|]. apply Z.div_lt_upper_bound; nia.
Qed.

(** Half an application of G. *)
Definition hA (x a b : Z) : Z := (a + b + x) mod M.
Definition hD (r : Z) (x a b d : Z) : Z := BlakeSpec.ror W (Z.lxor d (hA x a b)) r.
Definition hC (r : Z) (x a b c d : Z) : Z := (c + hD r x a b d) mod M.
Definition hB (r r' : Z) (x a b c d : Z) : Z := BlakeSpec.ror W (Z.lxor b (hC r x a b c d)) r'.
Definition hstep (r r' : Z) (x : Z) (p : pos) (v : list Z) : list Z :=
  let '(a, b, c, d) := p in
  upd (upd (upd (upd v a (hA x (vget v a) (vget v b)))
                     b (hB r r' x (vget v a) (vget v b) (vget v c) (vget v d)))
                     c (hC r x (vget v a) (vget v b) (vget v c) (vget v d)))
                     d (hD r x (vget v a) (vget v b) (vget v d)).
Definition vec (v : list Z) : Prop := length v = 16%nat /\ Forall word v.
Lemma vec16 v : vec v -> exists a0 a1 a2 a3 a4 a5 a6 a7 a8 a9 a10 a11 a12 a13 a14 a15,
  v = [a0; a1; a2; a3; a4; a5; a6; a7; a8; a9; a10; a11; a12; a13; a14; a15].
Proof.
  intros [L _]. do 16 (destruct v as [|? v]; [discriminate|]). destruct v; [|discriminate]. repeat eexists.
Qed.

Lemma hA_word x a b : word (hA x a b). Proof using HW. apply word_mod. Qed.
Lemma hD_word r x a b d : 0 < r < W -> word d -> word (hD r x a b d).
Proof using HW. intros. apply ror_word; [assumption|]. apply word_xor; [assumption|apply hA_word]. Qed.
Lemma hC_word r x a b c d : word (hC r x a b c d). Proof using HW. apply word_mod. Qed.
Lemma hB_word r r' x a b c d : 0 < r' < W -> word b -> word (hB r r' x a b c d).
Proof using HW. intros. apply ror_word; [assumption|]. apply word_xor; [assumption|apply hC_word]. Qed.

(** The seven lines of half an application; the first is [c0]. *)
Definition half_code (c0 : binstr) (p : pos) (r r' : nat) : list binstr :=
  let '(a, b, c, d) := p in [c0; AddV a b; XorV d a; Ror d r; AddV c d; XorV b c; Ror b r'].

Lemma add3 a b x : ((a + x) mod M + b) mod M = (a + b + x) mod M.
Proof. rewrite Zplus_mod_idemp_l. f_equal. ring. Qed.

Ltac fields F := repeat match type of F with Forall _ (_ :: _) => inversion F as [|? ? ?Hw F']; subst; clear F; rename F' into F end.
Lemma half_run m cst c0 p r r' x v : vec v -> In p positions ->
  (0 < Z.of_nat r < W) -> (0 < Z.of_nat r' < W) ->
  (forall v, bexec W m cst v c0 = let '(a, _, _, _) := p in upd v a ((vget v a + x) mod M)) ->
  brun W m cst (half_code c0 p r r') v = hstep (Z.of_nat r) (Z.of_nat r') x p v
  /\ vec (hstep (Z.of_nat r) (Z.of_nat r') x p v).
Proof using HW.
  intros Hv Hp Hr Hr' Hc. destruct (vec16 v Hv) as (a0 & a1 & a2 & a3 & a4 & a5 & a6 & a7 & a8 & a9 & a10 & a11 & a12 & a13 & a14 & a15 & ->).
  destruct Hv as [_ F]. fields F.
  assert (K : forall a b c d, word a -> word b -> word c -> word d ->
    let A := ((a + x) mod M + b) mod M in
    let D := ror_code (Z.lxor d A) (Z.of_nat r) in
    let C := (c + D) mod M in
    let B := ror_code (Z.lxor b C) (Z.of_nat r') in
    A = hA x a b /\ D = hD (Z.of_nat r) x a b d /\ C = hC (Z.of_nat r) x a b c d /\ B = hB (Z.of_nat r) (Z.of_nat r') x a b c d).
  { intros a b c d Ha Hb Hcc Hd. cbv zeta.
    assert (EA : ((a + x) mod M + b) mod M = hA x a b) by apply add3. rewrite EA.
    assert (ED : ror_code (Z.lxor d (hA x a b)) (Z.of_nat r) = hD (Z.of_nat r) x a b d).
    { apply ror_eq; [exact Hr|]. apply word_xor; [exact Hd|apply hA_word]. }
    rewrite ED. split; [reflexivity|]. split; [reflexivity|]. split; [reflexivity|].
    apply ror_eq; [exact Hr'|]. apply word_xor; [exact Hb|apply word_mod]. }
  unfold brun, half_code.
  repeat (destruct Hp as [<-|Hp]; [
    cbn [fold_left]; rewrite Hc; cbn [bexec upd vget nth hstep];
    match goal with |- context [hA x ?a ?b] => match goal with |- context [hC _ x a b ?c ?d] =>
      destruct (K a b c d) as (EA & ED & EC & EB); [assumption|assumption|assumption|assumption|]; unfold ror_code in *;
      rewrite EA in *; rewrite ED in *; rewrite EC in *; rewrite EB in * end end;
    split; [reflexivity|]; split; [reflexivity|];
    repeat (apply Forall_cons; [first [assumption|apply hA_word|apply hC_word|apply hD_word; assumption|apply hB_word; assumption]|]);
    apply Forall_nil |]).
  destruct Hp.
Qed.

(** A round: in the code the eight first halves and the eight second halves are
    interleaved as follows. *)
Variables r1 r2 r3 r4 : nat.
Hypothesis R1 : 0 < Z.of_nat r1 < W.
Hypothesis R2 : 0 < Z.of_nat r2 < W.
Hypothesis R3 : 0 < Z.of_nat r3 < W.
Hypothesis R4 : 0 < Z.of_nat r4 < W.
(** [inj i b] is the line that injects the word of the first ([b = true]) or
    second half of the i-th application. *)
Definition round_code (inj : nat -> bool -> binstr) : list binstr :=
  flat_map (fun ib : nat * bool => let (i, b) := ib in
    half_code (inj i b) (position i) (if b then r1 else r3) (if b then r2 else r4)) order.
Definition qW : BlakeSpec.word_par :=
  {| BlakeSpec.wW := W; BlakeSpec.wR1 := Z.of_nat r1; BlakeSpec.wR2 := Z.of_nat r2;
     BlakeSpec.wR3 := Z.of_nat r3; BlakeSpec.wR4 := Z.of_nat r4 |}.

Definition osteps (X Y : nat -> Z) (l : list (nat * bool)) (v : list Z) : list Z :=
  fold_left (fun v (ib : nat * bool) => let (i, b) := ib in
    hstep (if b then Z.of_nat r1 else Z.of_nat r3) (if b then Z.of_nat r2 else Z.of_nat r4)
          (if b then X i else Y i) (position i) v) l v.
Lemma position_in i : (i < 8)%nat -> In (position i) positions.
Proof. intros H. do 8 (destruct i; [cbn; tauto|]). lia. Qed.

Lemma brun_app m cst a b v : brun W m cst (a ++ b) v = brun W m cst b (brun W m cst a v).
Proof. apply fold_left_app. Qed.

Lemma osteps_run m cst inj X Y l : Forall (fun ib => fst ib < 8)%nat l ->
  (forall i b v, (i < 8)%nat -> bexec W m cst v (inj i b) =
     let '(a, _, _, _) := position i in upd v a ((vget v a + (if b : bool then X i else Y i)) mod M)) ->
  forall v, vec v ->
  brun W m cst (flat_map (fun ib : nat * bool => let (i, b) := ib in
    half_code (inj i b) (position i) (if b then r1 else r3) (if b then r2 else r4)) l) v = osteps X Y l v
  /\ vec (osteps X Y l v).
Proof using HW R1 R2 R3 R4.
  intros Hl Hinj. induction Hl as [|[i b] l Hi Hl IH]; intros v Hv; [split; [reflexivity|exact Hv]|].
  cbn [fst] in Hi. cbn [flat_map]. rewrite brun_app. unfold osteps. cbn [fold_left].
  destruct (half_run m cst (inj i b) (position i) (if b then r1 else r3) (if b then r2 else r4)
              (if b then X i else Y i) v Hv (position_in i Hi)) as [E V].
  - destruct b; assumption.
  - destruct b; assumption.
  - intros w. apply Hinj. exact Hi.
  - rewrite E. replace (Z.of_nat (if b then r1 else r3)) with (if b then Z.of_nat r1 else Z.of_nat r3) in * by (destruct b; reflexivity).
    replace (Z.of_nat (if b then r2 else r4)) with (if b then Z.of_nat r2 else Z.of_nat r4) in * by (destruct b; reflexivity).
    apply IH. exact V.
Qed.

Definition gvec (x y : Z) (v : list Z) (a b c d : nat) : list Z :=
  let A := hA x (vget v a) (vget v b) in
  let B := hB (Z.of_nat r1) (Z.of_nat r2) x (vget v a) (vget v b) (vget v c) (vget v d) in
  let C := hC (Z.of_nat r1) x (vget v a) (vget v b) (vget v c) (vget v d) in
  let D := hD (Z.of_nat r1) x (vget v a) (vget v b) (vget v d) in
  upd (upd (upd (upd v a (hA y A B)) b (hB (Z.of_nat r3) (Z.of_nat r4) y A B C D)) c (hC (Z.of_nat r3) y A B C D))
    d (hD (Z.of_nat r3) y A B D).
Lemma put_upd v i x : (i < length v)%nat -> BlakeSpec.put v i x = upd v i x.
Proof.
  unfold BlakeSpec.put. revert i. induction v as [|y v IH]; intros [|i] H; cbn in *; try lia; try reflexivity.
  rewrite <- IH by lia. reflexivity.
Qed.
Lemma upd_length v i x : length (upd v i x) = length v.
Proof. revert i. induction v as [|y v IH]; intros [|i]; cbn; try reflexivity. now rewrite IH. Qed.
Lemma G_scalar x y v a b c d : (a < length v)%nat -> (b < length v)%nat -> (c < length v)%nat -> (d < length v)%nat ->
  BlakeSpec.G qW x y v a b c d = gvec x y v a b c d.
Proof.
  intros Ha Hb Hc Hd. unfold BlakeSpec.G, gvec. cbv zeta. 
  rewrite (put_upd v a) by exact Ha. rewrite (put_upd _ b) by (rewrite ?upd_length; exact Hb).
  rewrite (put_upd _ c) by (rewrite ?upd_length; exact Hc). rewrite (put_upd _ d) by (rewrite ?upd_length; exact Hd).
  cbn [BlakeSpec.wW BlakeSpec.wR1 BlakeSpec.wR2 BlakeSpec.wR3 BlakeSpec.wR4 qW].
  unfold hB, hC, hD, hA, BlakeSpec.get, vget. reflexivity.
Qed.
Lemma G_halves x y p v : vec v -> In p positions ->
  BlakeSpec.G qW x y v (fst (fst (fst p))) (snd (fst (fst p))) (snd (fst p)) (snd p) =
  hstep (Z.of_nat r3) (Z.of_nat r4) y p (hstep (Z.of_nat r1) (Z.of_nat r2) x p v).
Proof.
  intros Hv Hp. rewrite G_scalar
    by (rewrite (proj1 Hv); repeat (destruct Hp as [<-|Hp]; [cbn; lia|]); destruct Hp).
  destruct (vec16 v Hv) as (a0 & a1 & a2 & a3 & a4 & a5 & a6 & a7 & a8 & a9 & a10 & a11 & a12 & a13 & a14 & a15 & ->).
  repeat (destruct Hp as [<-|Hp]; [cbn [fst snd hstep]; unfold gvec; cbn [hstep upd vget nth]; reflexivity|]). destruct Hp.
Qed.
Lemma hstep_vec r r' x p v : 0 < r < W -> 0 < r' < W -> vec v -> In p positions -> vec (hstep r r' x p v).
Proof using HW.
  intros Hr Hr' Hv Hp. destruct (vec16 v Hv) as (a0 & a1 & a2 & a3 & a4 & a5 & a6 & a7 & a8 & a9 & a10 & a11 & a12 & a13 & a14 & a15 & ->).
  destruct Hv as [_ F]. fields F.
  repeat (destruct Hp as [<-|Hp]; [
    cbn [upd vget nth hstep]; split; [reflexivity|];
    repeat (apply Forall_cons; [first [assumption|apply hA_word|apply hC_word|apply hD_word; assumption|apply hB_word; assumption]|]);
    apply Forall_nil |]).
  destruct Hp.
Qed.
Lemma osteps_astep X Y l v : osteps X Y l v = fold_left (astep
  (fun b i => hA (if b then X i else Y i))
  (fun b i => hB (if b then Z.of_nat r1 else Z.of_nat r3) (if b then Z.of_nat r2 else Z.of_nat r4) (if b then X i else Y i))
  (fun b i => hC (if b then Z.of_nat r1 else Z.of_nat r3) (if b then X i else Y i))
  (fun b i => hD (if b then Z.of_nat r1 else Z.of_nat r3) (if b then X i else Y i))) l v.
Proof. unfold osteps. f_equal. Qed.
Definition Gat (X Y : nat -> Z) (i : nat) (v : list Z) : list Z :=
  BlakeSpec.G qW (X i) (Y i) v (fst (fst (fst (position i)))) (snd (fst (fst (position i)))) (snd (fst (position i))) (snd (position i)).
Lemma round_fold X Y v : BlakeSpec.round qW X Y v = fold_left (fun v i => Gat X Y i v) (seq 0 8) v.
Proof. cbn [seq fold_left]. unfold Gat. cbn [position positions nth fst snd]. unfold BlakeSpec.round. cbv zeta. reflexivity. Qed.
Lemma osteps_fold X Y v : osteps X Y std_order v = fold_left (fun v i =>
  hstep (Z.of_nat r3) (Z.of_nat r4) (Y i) (position i) (hstep (Z.of_nat r1) (Z.of_nat r2) (X i) (position i) v)) (seq 0 8) v.
Proof. unfold osteps, std_order. cbn [seq fold_left]. reflexivity. Qed.
Lemma round_eq X Y v : vec v -> osteps X Y order v = BlakeSpec.round qW X Y v.
Proof using HW R1 R2 R3 R4.
  intros Hv. rewrite osteps_astep.
  rewrite reorder by apply Hv. rewrite <- osteps_astep.
  rewrite round_fold, osteps_fold. revert v Hv.
  assert (K : forall l, Forall (fun i => (i < 8)%nat) l -> forall v, vec v ->
    fold_left (fun v i => hstep (Z.of_nat r3) (Z.of_nat r4) (Y i) (position i) (hstep (Z.of_nat r1) (Z.of_nat r2) (X i) (position i) v)) l v =
    fold_left (fun v i => Gat X Y i v) l v).
  { induction 1 as [|i l Hi Hl IH]; intros v Hv; [reflexivity|]. cbn [fold_left].
    unfold Gat at 2. rewrite G_halves by (try assumption; apply position_in; exact Hi).
    apply IH. apply hstep_vec; try assumption; [|apply position_in; exact Hi]. apply hstep_vec; try assumption. apply position_in; exact Hi. }
  apply K. repeat constructor.
Qed.

Lemma round_run m cst inj X Y v :
  (forall i b v, (i < 8)%nat -> bexec W m cst v (inj i b) =
     let '(a, _, _, _) := position i in upd v a ((vget v a + (if b : bool then X i else Y i)) mod M)) ->
  vec v ->
  brun W m cst (round_code inj) v = BlakeSpec.round qW X Y v /\ vec (BlakeSpec.round qW X Y v).
Proof using HW R1 R2 R3 R4.
  intros Hinj Hv. destruct (osteps_run m cst inj X Y order) with (v := v) as [E V]; try assumption.
  { repeat constructor. }
  rewrite <- round_eq by exact Hv. split; [exact E|exact V].
Qed.
End W.

(** The code of round r of BLAKE and of BLAKE2s. *)
Definition blake_inj (r i : nat) (b : bool) : binstr :=
  let a := let '(a, _, _, _) := position i in a in
  if b then AddMC a (BlakeSpec.sigma r (2 * i)) (BlakeSpec.sigma r (2 * i + 1))
  else AddMC a (BlakeSpec.sigma r (2 * i + 1)) (BlakeSpec.sigma r (2 * i)).
Definition blake2_inj (r i : nat) (b : bool) : binstr :=
  let a := let '(a, _, _, _) := position i in a in
  if b then AddM a (BlakeSpec.sigma r (2 * i)) else AddM a (BlakeSpec.sigma r (2 * i + 1)).

Lemma blake256_code_eq : blake256_code = flat_map (fun r => round_code 16 12 8 7 (blake_inj r)) (seq 0 14).
Proof. vm_compute. reflexivity. Qed.
Lemma blake512_code_eq : blake512_code = flat_map (fun r => round_code 32 25 16 11 (blake_inj r)) (seq 0 16).
Proof. vm_compute. reflexivity. Qed.
Lemma blake2s_code_eq : blake2s_code = flat_map (fun r => round_code 16 12 8 7 (blake2_inj r)) (seq 0 10).
Proof. vm_compute. reflexivity. Qed.

Section Rounds.
Variables (W : Z) (r1 r2 r3 r4 : nat).
Hypothesis HW : 0 < W.
Hypothesis R1 : 0 < Z.of_nat r1 < W.
Hypothesis R2 : 0 < Z.of_nat r2 < W.
Hypothesis R3 : 0 < Z.of_nat r3 < W.
Hypothesis R4 : 0 < Z.of_nat r4 < W.
Lemma rounds_ind m cst : forall (R : list Z -> nat -> list Z) (F : nat -> list binstr),
  (forall r v, vec W v -> brun W m cst (F r) v = R v r /\ vec W (R v r)) ->
  forall l v, vec W v -> brun W m cst (flat_map F l) v = fold_left R l v /\ vec W (fold_left R l v).
Proof.
  intros R F S. induction l as [|r l IH]; intros v Hv; [split; [reflexivity|exact Hv]|].
  cbn [flat_map fold_left]. rewrite brun_app. destruct (S r v Hv) as [E V]. rewrite E. apply IH. exact V.
Qed.
Lemma rounds_run m cst (inj : nat -> nat -> bool -> binstr) (X Y : nat -> nat -> Z) :
  (forall r i b v, (i < 8)%nat -> bexec W m cst v (inj r i b) =
     let '(a, _, _, _) := position i in upd v a ((vget v a + (if b : bool then X r i else Y r i)) mod 2 ^ W)) ->
  forall l v, vec W v ->
  brun W m cst (flat_map (fun r => round_code r1 r2 r3 r4 (inj r)) l) v
    = fold_left (fun v r => BlakeSpec.round (qW W r1 r2 r3 r4) (X r) (Y r) v) l v
  /\ vec W (fold_left (fun v r => BlakeSpec.round (qW W r1 r2 r3 r4) (X r) (Y r) v) l v).
Proof using HW R1 R2 R3 R4.
  intros Hinj.
  assert (S : forall r v, vec W v -> brun W m cst (round_code r1 r2 r3 r4 (inj r)) v = BlakeSpec.round (qW W r1 r2 r3 r4) (X r) (Y r) v
    /\ vec W (BlakeSpec.round (qW W r1 r2 r3 r4) (X r) (Y r) v))
    by (intros r v Hv; exact (round_run W HW r1 r2 r3 r4 R1 R2 R3 R4 m cst (inj r) (X r) (Y r) v (Hinj r) Hv)).
  exact (rounds_ind m cst (fun v r => BlakeSpec.round (qW W r1 r2 r3 r4) (X r) (Y r) v) (fun r => round_code r1 r2 r3 r4 (inj r)) S).
Qed.
End Rounds.

Lemma blake_inj_exec W m cst r i b v : (i < 8)%nat -> bexec W m cst v (blake_inj r i b) =
  let '(a, _, _, _) := position i in upd v a ((vget v a +
    (if b : bool then Z.lxor (vget m (BlakeSpec.sigma r (2 * i))) (vget cst (BlakeSpec.sigma r (2 * i + 1)))
     else Z.lxor (vget m (BlakeSpec.sigma r (2 * i + 1))) (vget cst (BlakeSpec.sigma r (2 * i))))) mod 2 ^ W).
Proof. intros _. unfold blake_inj. destruct (position i) as [[[a ?] ?] ?]. destruct b; reflexivity. Qed.
Lemma blake2_inj_exec W m cst r i b v : (i < 8)%nat -> bexec W m cst v (blake2_inj r i b) =
  let '(a, _, _, _) := position i in upd v a ((vget v a +
    (if b : bool then vget m (BlakeSpec.sigma r (2 * i)) else vget m (BlakeSpec.sigma r (2 * i + 1)))) mod 2 ^ W).
Proof. intros _. unfold blake2_inj. destruct (position i) as [[[a ?] ?] ?]. destruct b; reflexivity. Qed.
