(** Verified interval and value analysis of the limb programs of ModelSlp.v. *)
Require Import ZArith List Lia Bool Znumtheory.
Require Import Verif.Base Verif.ModelSlp.
Import ListNotations.
Open Scope Z_scope.

Lemma sgn_id w x : 0 < w -> - 2 ^ (w - 1) <= x < 2 ^ (w - 1) -> sgn w x = x.
Proof.
  intros Hw H. unfold sgn.
  assert (E : 2 ^ w = 2 * 2 ^ (w - 1)). { rewrite <- Z.pow_succ_r by lia. f_equal. lia. }
  rewrite Z.mod_small; lia.
Qed.

Lemma upd_length i v x : length (upd i v x) = length x.
Proof. revert i. induction x as [|h t IH]; intros [|i]; cbn; auto. Qed.
Lemma nth_upd i j v x : (i < length x)%nat ->
  nth j (upd i v x) 0 = if Nat.eqb i j then v else nth j x 0.
Proof.
  revert i j. induction x as [|h t IH]; intros i j H; [cbn in H; lia|].
  destruct i, j; cbn; try reflexivity. apply IH. cbn in H. lia.
Qed.
Lemma nth_upd_same i v x : (i < length x)%nat -> nth i (upd i v x) 0 = v.
Proof. intros H. rewrite nth_upd, Nat.eqb_refl; auto. Qed.
Lemma nth_upd_ne i j v x : i <> j -> nth j (upd i v x) 0 = nth j x 0.
Proof.
  revert i j. induction x as [|h t IH]; intros i j H; destruct i, j; cbn; try reflexivity.
  - congruence. - apply IH. congruence.
Qed.

(** ** Intervals *)
Definition itv : Type := (Z * Z)%type.
Definition inI (I : itv) (x : Z) : Prop := fst I <= x <= snd I.
Definition inL (Is : list itv) (x : list Z) : Prop := Forall2 inI Is x.

Lemma inL_length Is x : inL Is x -> length x = length Is.
Proof. intros H. induction H; cbn; congruence. Qed.

Lemma inL_nth Is x i : inL Is x -> (i < length Is)%nat -> inI (nth i Is (0, 0)) (nth i x 0).
Proof.
  intros H. revert i. induction H as [|I v Is x HI H IH]; intros i Hi; [cbn in Hi; lia|].
  destruct i; [exact HI|]. cbn. apply IH. cbn in Hi. lia.
Qed.

Fixpoint updI (i : nat) (v : itv) (x : list itv) : list itv :=
  match x, i with
  | [], _ => []
  | _ :: t, O => v :: t
  | h :: t, S i' => h :: updI i' v t
  end.
Lemma updI_length i v x : length (updI i v x) = length x.
Proof. revert i. induction x as [|h t IH]; intros [|i]; cbn; auto. Qed.
Lemma inL_upd Is x i I v : inL Is x -> inI I v -> inL (updI i I Is) (upd i v x).
Proof.
  intros H HI. revert i. induction H as [|J u Is x HJ H IH]; intros i; [destruct i; constructor|].
  destruct i; cbn; constructor; auto. apply IH.
Qed.

Definition fits (w : Z) (I : itv) : bool := (- 2 ^ (w - 1) <=? fst I) && (snd I <? 2 ^ (w - 1)).
Lemma fits_sgn w I x : 0 < w -> fits w I = true -> inI I x -> sgn w x = x.
Proof.
  unfold fits, inI. intros Hw H HI. apply andb_prop in H. destruct H as [A B].
  apply Z.leb_le in A. apply Z.ltb_lt in B. apply sgn_id; lia.
Qed.

Definition addI (a b : itv) : itv := (fst a + fst b, snd a + snd b).
Definition mulI (a b : itv) : itv :=
  let p := fst a * fst b in let q := fst a * snd b in
  let r := snd a * fst b in let s := snd a * snd b in
  (Z.min (Z.min p q) (Z.min r s), Z.max (Z.max p q) (Z.max r s)).
Lemma addI_ok a b x y : inI a x -> inI b y -> inI (addI a b) (x + y).
Proof. unfold inI, addI. cbn. lia. Qed.

Lemma mul_lin l h x k : l <= x <= h -> Z.min (l * k) (h * k) <= x * k <= Z.max (l * k) (h * k).
Proof.
  intros [A B]. destruct (Z_le_gt_dec 0 k) as [P|P].
  - assert (l * k <= x * k) by (apply Z.mul_le_mono_nonneg_r; lia).
    assert (x * k <= h * k) by (apply Z.mul_le_mono_nonneg_r; lia). lia.
  - assert (h * k <= x * k) by (apply Z.mul_le_mono_nonpos_r; lia).
    assert (x * k <= l * k) by (apply Z.mul_le_mono_nonpos_r; lia). lia.
Qed.
Lemma mulI_ok a b x y : inI a x -> inI b y -> inI (mulI a b) (x * y).
Proof.
  unfold inI, mulI. cbn. intros Hx Hy.
  pose proof (mul_lin _ _ x y Hx) as H1.
  pose proof (mul_lin _ _ y (fst a) Hy) as H2.
  pose proof (mul_lin _ _ y (snd a) Hy) as H3.
  rewrite (Z.mul_comm y), (Z.mul_comm (fst b)), (Z.mul_comm (snd b)) in H2.
  rewrite (Z.mul_comm y), (Z.mul_comm (fst b)), (Z.mul_comm (snd b)) in H3. lia.
Qed.

(** ** Expressions *)
Fixpoint zev (x : list Z) (e : ex) : Z :=
  match e with
  | V n => nth n x 0
  | M32 c n => c * nth n x 0
  | K c => c
  | Add a b => zev x a + zev x b
  | Mul a b => zev x a * zev x b
  end.

Fixpoint iev (Is : list itv) (e : ex) : option itv :=
  match e with
  | V n => if (n <? length Is)%nat then Some (nth n Is (0, 0)) else None
  | M32 c n =>
      if (n <? length Is)%nat then
        let I := mulI (c, c) (nth n Is (0, 0)) in if fits 32 I then Some I else None
      else None
  | K c => Some (c, c)
  | Add a b => match iev Is a, iev Is b with
               | Some A, Some B => let I := addI A B in if fits 64 I then Some I else None
               | _, _ => None end
  | Mul a b => match iev Is a, iev Is b with
               | Some A, Some B => let I := mulI A B in if fits 64 I then Some I else None
               | _, _ => None end
  end.

Lemma iev_ok Is x e I : inL Is x -> iev Is e = Some I -> ev x e = zev x e /\ inI I (zev x e).
Proof.
  intros H. revert I. induction e as [n|c n|c|a IHa b IHb|a IHa b IHb]; intros I; cbn [iev ev zev].
  - destruct (Nat.ltb_spec n (length Is)); [|discriminate]. intros [= <-].
    split; [reflexivity|]. now apply inL_nth.
  - destruct (Nat.ltb_spec n (length Is)); [|discriminate].
    destruct (fits 32 _) eqn:F; [|discriminate]. intros [= <-].
    assert (G : inI (mulI (c, c) (nth n Is (0, 0))) (c * nth n x 0)).
    { apply mulI_ok; [unfold inI; cbn; lia|now apply inL_nth]. }
    split; [|exact G]. apply (fits_sgn 32 _ _ eq_refl F G).
  - intros [= <-]. split; [reflexivity|unfold inI; cbn; lia].
  - destruct (iev Is a) as [A|]; [|discriminate]. destruct (iev Is b) as [B|]; [|discriminate].
    destruct (fits 64 _) eqn:F; [|discriminate]. intros [= <-].
    destruct (IHa _ eq_refl) as [-> Ha]. destruct (IHb _ eq_refl) as [-> Hb].
    pose proof (addI_ok _ _ _ _ Ha Hb) as G. split; [|exact G]. apply (fits_sgn 64 _ _ eq_refl F G).
  - destruct (iev Is a) as [A|]; [|discriminate]. destruct (iev Is b) as [B|]; [|discriminate].
    destruct (fits 64 _) eqn:F; [|discriminate]. intros [= <-].
    destruct (IHa _ eq_refl) as [-> Ha]. destruct (IHb _ eq_refl) as [-> Hb].
    pose proof (mulI_ok _ _ _ _ Ha Hb) as G. split; [|exact G]. apply (fits_sgn 64 _ _ eq_refl F G).
Qed.

Fixpoint iall {A} (l : list (option A)) : option (list A) :=
  match l with
  | [] => Some []
  | Some a :: t => match iall t with Some r => Some (a :: r) | None => None end
  | None :: _ => None
  end.
Definition ievs (Is : list itv) (es : list ex) : option (list itv) := iall (map (iev Is) es).
Lemma ievs_ok Is x es Js : inL Is x -> ievs Is es = Some Js ->
  map (ev x) es = map (zev x) es /\ inL Js (map (zev x) es).
Proof.
  intros H. revert Js. unfold ievs. induction es as [|e es IH]; intros Js; cbn [map iall].
  - intros [= <-]. split; [reflexivity|constructor].
  - destruct (iev Is e) as [I|] eqn:E; [|discriminate].
    destruct (iall _) as [Js'|]; [|discriminate]. intros [= <-].
    destruct (iev_ok _ _ _ _ H E) as [-> G]. destruct (IH _ eq_refl) as [-> G'].
    split; [reflexivity|constructor; assumption].
Qed.

(** ** Statements *)
Definition zacc (x : list Z) (j : nat) (v : Z) : list Z := upd j (nth j x 0 + v) x.
Definition zstep (x : list Z) (s : instr) : list Z :=
  match s with
  | Carry r k i j m =>
      let c := (nth i x 0 + r) / 2 ^ k in
      upd i (nth i x 0 - c * 2 ^ k) (zacc x j (c * m))
  | Drop k i => upd i (nth i x 0 mod 2 ^ k) x
  | Fold i l => upd i 0 (fold_left (fun y jc => zacc y (fst jc) (nth i x 0 * snd jc)) l x)
  end.
Definition zexec (c : list instr) (x : list Z) : list Z := fold_left zstep c x.

Section An.
Variable w : Z.
Definition getI (Is : list itv) i : itv := nth i Is (0, 0).
Definition chk (I : itv) : option itv := if fits w I then Some I else None.
Fixpoint ifold (s : itv) (i : nat) (l : list (nat * Z)) (Is : list itv) : option (list itv) :=
  match l with
  | [] => Some Is
  | (j, c) :: t =>
      if (j <? length Is)%nat && negb (Nat.eqb i j) then
        match chk (mulI s (c, c)) with
        | Some P => match chk (addI (getI Is j) P) with
                    | Some Q => ifold s i t (updI j Q Is)
                    | None => None end
        | None => None end
      else None
  end.
Definition istep (Is : list itv) (s : instr) : option (list itv) :=
  match s with
  | Carry r k i j m =>
      if (i <? length Is)%nat && (j <? length Is)%nat && negb (Nat.eqb i j) && (0 <=? k) then
        match chk (addI (getI Is i) (r, r)) with
        | Some (l, h) =>
            let C := (l / 2 ^ k, h / 2 ^ k) in
            match chk (mulI C (m, m)), chk (mulI C (2 ^ k, 2 ^ k)) with
            | Some M, Some _ =>
                match chk (addI (getI Is j) M), chk (- r, 2 ^ k - 1 - r) with
                | Some J, Some I1 => Some (updI i I1 (updI j J Is))
                | _, _ => None end
            | _, _ => None end
        | None => None end
      else None
  | Drop k i =>
      if (i <? length Is)%nat && (0 <=? k) then
        let '(l, h) := getI Is i in
        match chk (mulI (l / 2 ^ k, h / 2 ^ k) (2 ^ k, 2 ^ k)), chk (0, 2 ^ k - 1) with
        | Some _, Some I1 => Some (updI i I1 Is)
        | _, _ => None end
      else None
  | Fold i l =>
      if (i <? length Is)%nat then
        match ifold (getI Is i) i l Is with
        | Some Is' => Some (updI i (0, 0) Is')
        | None => None end
      else None
  end.
Fixpoint iexec (c : list instr) (Is : list itv) : option (list itv) :=
  match c with
  | [] => Some Is
  | s :: c' => match istep Is s with Some Is' => iexec c' Is' | None => None end
  end.

Hypothesis Hw : 0 < w.

Lemma chk_some I J : chk I = Some J -> J = I /\ fits w I = true.
Proof. unfold chk. destruct (fits w I); [|discriminate]. intros [= <-]. auto. Qed.

Lemma ifold_ok i x s l : forall Is y Js, inL Is y -> inI s (nth i x 0) -> nth i y 0 = nth i x 0 ->
  ifold s i l Is = Some Js ->
  fold_left (fun y jc => acc w y (fst jc) (sgn w (nth i y 0 * snd jc))) l y =
  fold_left (fun y jc => zacc y (fst jc) (nth i x 0 * snd jc)) l y /\
  inL Js (fold_left (fun y jc => zacc y (fst jc) (nth i x 0 * snd jc)) l y).
Proof using Hw.
  induction l as [|[j c] l IH]; intros Is y Js Hy Hs Hi; cbn [ifold fold_left].
  - intros [= <-]. auto.
  - destruct (Nat.ltb_spec j (length Is)) as [Hj|]; [|discriminate].
    destruct (Nat.eqb_spec i j) as [|Hij]; [discriminate|]. cbn [andb negb fst snd].
    destruct (chk (mulI s (c, c))) as [P|] eqn:E1; [|discriminate].
    destruct (chk (addI _ P)) as [Q|] eqn:E2; [|discriminate]. intros E.
    apply chk_some in E1. destruct E1 as [-> F1]. apply chk_some in E2. destruct E2 as [-> F2].
    assert (G1 : inI (mulI s (c, c)) (nth i x 0 * c)) by (apply mulI_ok; [exact Hs|unfold inI; cbn; lia]).
    assert (G2 := addI_ok _ _ _ _ (inL_nth _ _ j Hy Hj) G1).
    assert (EQ : acc w y j (sgn w (nth i y 0 * c)) = zacc y j (nth i x 0 * c)).
    { unfold acc, zacc. rewrite Hi, (fits_sgn w _ _ Hw F1 G1), (fits_sgn w _ _ Hw F2 G2). reflexivity. }
    rewrite EQ.
    apply (IH _ _ _ (inL_upd _ _ j _ _ Hy G2) Hs); [|exact E].
    rewrite nth_upd_ne by congruence. exact Hi.
Qed.

Lemma istep_ok s Is x Js : inL Is x -> istep Is s = Some Js -> step w x s = zstep x s /\ inL Js (zstep x s).
Proof using Hw.
  intros H. pose proof (inL_length _ _ H) as HL. destruct s as [r k i j m|k i|i l]; cbn [istep step zstep].
  - destruct (Nat.ltb_spec i (length Is)) as [Hi|]; [|discriminate].
    destruct (Nat.ltb_spec j (length Is)) as [Hj|]; [|discriminate].
    destruct (Nat.eqb_spec i j) as [|Hij]; [discriminate|].
    destruct (Z.leb_spec 0 k) as [Hk|]; [|discriminate]. cbn [andb negb].
    destruct (chk (addI _ _)) as [[l h]|] eqn:E1; [|discriminate].
    destruct (chk (mulI _ (m, m))) as [M|] eqn:E2; [|discriminate].
    destruct (chk (mulI _ (2 ^ k, 2 ^ k))) as [S1|] eqn:E3; [|discriminate].
    destruct (chk (addI _ M)) as [J|] eqn:E4; [|discriminate].
    destruct (chk (- r, _)) as [I|] eqn:E5; [|discriminate].
    intros [= <-].
    apply chk_some in E1, E2, E3, E4, E5.
    destruct E1 as [Q1 F1], E2 as [-> F2], E3 as [-> F3], E4 as [-> F4], E5 as [-> F5].
    assert (P2 : 0 < 2 ^ k) by (apply Z.pow_pos_nonneg; lia).
    assert (G1 : inI (addI (getI Is i) (r, r)) (nth i x 0 + r)).
    { apply addI_ok; [now apply inL_nth|unfold inI; cbn; lia]. }
    assert (G1' : l <= nth i x 0 + r <= h). { rewrite <- Q1 in G1. exact G1. }
    assert (GC : inI (l / 2 ^ k, h / 2 ^ k) ((nth i x 0 + r) / 2 ^ k)).
    { split; cbn; apply Z.div_le_mono; lia. }
    assert (G2 : inI (mulI (l / 2 ^ k, h / 2 ^ k) (m, m)) ((nth i x 0 + r) / 2 ^ k * m)).
    { apply mulI_ok; [exact GC|unfold inI; cbn; lia]. }
    assert (G3 : inI (mulI (l / 2 ^ k, h / 2 ^ k) (2 ^ k, 2 ^ k)) ((nth i x 0 + r) / 2 ^ k * 2 ^ k)).
    { apply mulI_ok; [exact GC|unfold inI; cbn; lia]. }
    assert (G4 := addI_ok _ _ _ _ (inL_nth _ _ j H Hj) G2).
    assert (G5 : inI (- r, 2 ^ k - 1 - r) (nth i x 0 - (nth i x 0 + r) / 2 ^ k * 2 ^ k)).
    { pose proof (Z.div_mod (nth i x 0 + r) (2 ^ k) ltac:(lia)) as D.
      pose proof (Z.mod_pos_bound (nth i x 0 + r) (2 ^ k) P2). unfold inI. cbn [fst snd]. lia. }
    rewrite (fits_sgn w _ _ Hw F1 G1), Z.shiftr_div_pow2, Z.shiftl_mul_pow2 by exact Hk.
    unfold acc, zacc. rewrite (fits_sgn w _ _ Hw F2 G2), (fits_sgn w _ _ Hw F4 G4), (fits_sgn w _ _ Hw F3 G3).
    rewrite nth_upd_ne by congruence. rewrite (fits_sgn w _ _ Hw F5 G5).
    split; [reflexivity|]. apply inL_upd; [|exact G5]. apply inL_upd; [exact H|exact G4].
  - destruct (Nat.ltb_spec i (length Is)) as [Hi|]; [|discriminate].
    destruct (Z.leb_spec 0 k) as [Hk|]; [|discriminate]. cbn [andb].
    destruct (getI Is i) as [l h] eqn:EI.
    destruct (chk (mulI _ _)) as [M|] eqn:E2; [|discriminate].
    destruct (chk (0, _)) as [I|] eqn:E5; [|discriminate]. intros [= <-].
    apply chk_some in E2, E5. destruct E2 as [-> F2], E5 as [-> F5].
    assert (P2 : 0 < 2 ^ k) by (apply Z.pow_pos_nonneg; lia).
    pose proof (inL_nth _ _ i H Hi) as GI. fold (getI Is i) in GI. rewrite EI in GI.
    assert (GC : inI (l / 2 ^ k, h / 2 ^ k) (nth i x 0 / 2 ^ k)).
    { split; cbn; apply Z.div_le_mono; unfold inI in GI; cbn in GI; lia. }
    assert (G3 : inI (mulI (l / 2 ^ k, h / 2 ^ k) (2 ^ k, 2 ^ k)) (nth i x 0 / 2 ^ k * 2 ^ k)).
    { apply mulI_ok; [exact GC|unfold inI; cbn; lia]. }
    assert (E : nth i x 0 - nth i x 0 / 2 ^ k * 2 ^ k = nth i x 0 mod 2 ^ k).
    { rewrite Z.mod_eq by lia. lia. }
    assert (G5 : inI (0, 2 ^ k - 1) (nth i x 0 mod 2 ^ k)).
    { pose proof (Z.mod_pos_bound (nth i x 0) (2 ^ k) P2). unfold inI. cbn [fst snd]. lia. }
    rewrite Z.shiftr_div_pow2, Z.shiftl_mul_pow2 by exact Hk. rewrite (fits_sgn w _ _ Hw F2 G3), E.
    rewrite (fits_sgn w _ _ Hw F5 G5). split; [reflexivity|]. now apply inL_upd.
  - destruct (Nat.ltb_spec i (length Is)) as [Hi|]; [|discriminate].
    destruct (ifold _ i l Is) as [Js'|] eqn:E; [|discriminate]. intros [= <-].
    destruct (ifold_ok i x _ l Is x Js' H (inL_nth _ _ i H Hi) eq_refl E) as [-> G].
    split; [reflexivity|]. apply inL_upd; [exact G|]. unfold inI; cbn; lia.
Qed.

Lemma iexec_ok c : forall Is x Js, inL Is x -> iexec c Is = Some Js -> exec w c x = zexec c x /\ inL Js (zexec c x).
Proof using Hw.
  induction c as [|s c IH]; intros Is x Js H; cbn [iexec].
  - intros [= <-]. split; [reflexivity|exact H].
  - destruct (istep Is s) as [Is'|] eqn:E; [|discriminate]. intros E2.
    destruct (istep_ok _ _ _ _ H E) as [E1 G]. unfold exec, zexec. cbn [fold_left]. rewrite E1.
    apply (IH _ _ _ G E2).
Qed.
End An.

(** ** Values: the weighted sum of the limbs, modulo m (exactly if m = 0) *)
Fixpoint dot (ws x : list Z) : Z :=
  match ws, x with w :: ws', v :: x' => w * v + dot ws' x' | _, _ => 0 end.

Lemma dot_upd ws : forall x i v, (i < length x)%nat -> length ws = length x ->
  dot ws (upd i v x) = dot ws x + nth i ws 0 * (v - nth i x 0).
Proof.
  induction ws as [|w ws IH]; intros [|h t] i v Hi HL; cbn in *; try lia.
  destruct i; cbn; [lia|]. rewrite IH by lia. lia.
Qed.

Definition dvd (m x : Z) : bool := if m =? 0 then x =? 0 else x mod m =? 0.
Lemma dvd_ok m x : dvd m x = true -> (m | x).
Proof.
  unfold dvd. destruct (Z.eqb_spec m 0) as [->|N]; intros H; apply Z.eqb_eq in H.
  - subst. apply Z.divide_0_r. - now apply Z.mod_divide.
Qed.

Definition vstep (m : Z) (ws : list Z) (s : instr) : bool :=
  match s with
  | Carry r k i j c =>
      (i <? length ws)%nat && (j <? length ws)%nat && negb (Nat.eqb i j) && (0 <=? k) &&
      dvd m (nth j ws 0 * c - nth i ws 0 * 2 ^ k)
  | Drop k i => (i <? length ws)%nat && (0 <=? k) && dvd m (nth i ws 0 * 2 ^ k)
  | Fold i l =>
      (i <? length ws)%nat &&
      forallb (fun jc => (fst jc <? length ws)%nat && negb (Nat.eqb i (fst jc))) l &&
      dvd m (fold_right (fun jc a => nth (fst jc) ws 0 * snd jc + a) 0 l - nth i ws 0)
  end.

Lemma vfold ws i v l : forall y, length ws = length y ->
  forallb (fun jc => (fst jc <? length ws)%nat && negb (Nat.eqb i (fst jc))) l = true ->
  let y' := fold_left (fun y jc => zacc y (fst jc) (v * snd jc)) l y in
  length y' = length y /\ nth i y' 0 = nth i y 0 /\
  dot ws y' = dot ws y + v * fold_right (fun jc a => nth (fst jc) ws 0 * snd jc + a) 0 l.
Proof.
  induction l as [|[j c] l IH]; intros y HL; cbn [forallb fold_left fold_right fst snd].
  - intros _. cbn zeta. split; [reflexivity|]. split; [reflexivity|lia].
  - intros H. apply andb_prop in H. destruct H as [H1 H2]. apply andb_prop in H1. destruct H1 as [Hj Hij].
    apply Nat.ltb_lt in Hj. apply negb_true_iff, Nat.eqb_neq in Hij. cbn zeta.
    assert (HL' : length ws = length (zacc y j (v * c))) by (unfold zacc; now rewrite upd_length).
    destruct (IH _ HL' H2) as (A & B & C). rewrite A, B, C.
    unfold zacc. rewrite upd_length, nth_upd_ne by congruence. rewrite dot_upd by lia.
    split; [reflexivity|]. split; [reflexivity|]. lia.
Qed.

Lemma vstep_ok m ws s x : length ws = length x -> vstep m ws s = true ->
  (m | dot ws (zstep x s) - dot ws x).
Proof.
  intros HL. destruct s as [r k i j c|k i|i l]; cbn [vstep zstep].
  - intros H. apply andb_prop in H. destruct H as [H H5]. apply andb_prop in H. destruct H as [H Hk].
    apply andb_prop in H. destruct H as [H Hij]. apply andb_prop in H. destruct H as [Hi Hj].
    apply Nat.ltb_lt in Hi, Hj. apply negb_true_iff, Nat.eqb_neq in Hij. apply dvd_ok in H5. destruct H5 as [q Hq].
    cbn zeta. set (cc := (nth i x 0 + r) / 2 ^ k). unfold zacc.
    rewrite dot_upd by (rewrite ?upd_length; lia). rewrite nth_upd_ne by congruence.
    rewrite dot_upd by lia. exists (cc * q).
    transitivity (cc * (nth j ws 0 * c - nth i ws 0 * 2 ^ k)); [ring|]. rewrite Hq. ring.
  - intros H. apply andb_prop in H. destruct H as [H H5]. apply andb_prop in H. destruct H as [Hi Hk].
    apply Nat.ltb_lt in Hi. apply dvd_ok in H5. destruct H5 as [q Hq]. apply Z.leb_le in Hk.
    rewrite dot_upd by lia. assert (P2 : 0 < 2 ^ k) by (apply Z.pow_pos_nonneg; lia).
    rewrite Z.mod_eq by lia. exists (- (nth i x 0 / 2 ^ k) * q).
    transitivity (- (nth i x 0 / 2 ^ k) * (nth i ws 0 * 2 ^ k)); [ring|]. rewrite Hq. ring.
  - intros H. apply andb_prop in H. destruct H as [H H5]. apply andb_prop in H. destruct H as [Hi Hf].
    apply Nat.ltb_lt in Hi. apply dvd_ok in H5. destruct H5 as [q Hq].
    destruct (vfold ws i (nth i x 0) l x HL Hf) as (A & B & C).
    rewrite dot_upd by lia. rewrite B, C. exists (nth i x 0 * q).
    set (F := fold_right _ _ _) in *. transitivity (nth i x 0 * (F - nth i ws 0)); [ring|]. rewrite Hq. ring.
Qed.

Lemma zstep_length s x : length (zstep x s) = length x.
Proof.
  destruct s as [r k i j c|k i|i l]; cbn [zstep].
  - unfold zacc. now rewrite !upd_length.
  - now rewrite upd_length.
  - rewrite upd_length. generalize (nth i x 0) as v. intros v. revert x.
    induction l as [|jc l IH]; intros x; cbn [fold_left]; [reflexivity|]. rewrite IH. unfold zacc. apply upd_length.
Qed.
Lemma zexec_length c : forall x, length (zexec c x) = length x.
Proof.
  induction c as [|s c IH]; intros x; [reflexivity|]. unfold zexec. cbn [fold_left].
  change (length (zexec c (zstep x s)) = length x). now rewrite IH, zstep_length.
Qed.
Lemma zexec_app a b x : zexec (a ++ b) x = zexec b (zexec a x).
Proof. apply fold_left_app. Qed.

Lemma vexec_ok m ws c : forall x, length ws = length x -> forallb (vstep m ws) c = true ->
  (m | dot ws (zexec c x) - dot ws x).
Proof.
  induction c as [|s c IH]; intros x HL; cbn [forallb].
  - intros _. cbn. exists 0. lia.
  - intros H. apply andb_prop in H. destruct H as [H1 H2]. unfold zexec. cbn [fold_left].
    change (m | dot ws (zexec c (zstep x s)) - dot ws x).
    destruct (IH (zstep x s) ltac:(now rewrite zstep_length) H2) as [q1 E1].
    destruct (vstep_ok m ws s x HL H1) as [q2 E2]. exists (q1 + q2). lia.
Qed.
Lemma vexec_exact ws c x : length ws = length x -> forallb (vstep 0 ws) c = true ->
  dot ws (zexec c x) = dot ws x.
Proof. intros A B. destruct (vexec_ok 0 ws c x A B) as [q E]. lia. Qed.

(** Bounds of a weighted sum *)
Fixpoint dotI (ws : list Z) (Is : list itv) : itv :=
  match ws, Is with w :: ws', J :: Is' => addI (mulI (w, w) J) (dotI ws' Is') | _, _ => (0, 0) end.
Lemma dotI_ok ws : forall Is x, inL Is x -> inI (dotI ws Is) (dot ws x).
Proof.
  induction ws as [|w ws IH]; intros Is x H; [unfold inI; cbn; lia|].
  destruct H as [|I v Is x HI H]; [unfold inI; cbn; lia|]. cbn [dotI dot].
  apply addI_ok; [|now apply IH]. apply mulI_ok; [unfold inI; cbn; lia|exact HI].
Qed.

(** ** Output bytes *)
Lemma lor_add v c k : 0 <= k -> 0 <= v < 2 ^ k -> Z.lor v (Z.shiftl c k) = v + 2 ^ k * c.
Proof.
  intros Hk Hv. rewrite Z.shiftl_mul_pow2 by exact Hk. rewrite (Z.mul_comm (2 ^ k)).
  assert (L : Z.land v (c * 2 ^ k) = 0).
  { apply Z.bits_inj_0. intros m. rewrite Z.land_spec.
    destruct (Z_lt_ge_dec m 0) as [L|L]; [now rewrite Z.testbit_neg_r by lia|].
    destruct (Z_lt_ge_dec m k) as [L2|L2]; [now rewrite Z.mul_pow2_bits_low, andb_false_r by lia|].
    rewrite <- (Z.mod_small v (2 ^ k)) by lia. now rewrite Z.mod_pow2_bits_high by lia. }
  rewrite <- Z.lxor_lor by exact L. now rewrite <- Z.add_nocarry_lxor by exact L.
Qed.

Fixpoint cat (ks : list Z) (x : list Z) : Z :=
  match ks, x with k :: ks', v :: x' => v + 2 ^ k * cat ks' x' | _, _ => 0 end.

(** position of bit n: limb and bit in the limb *)
Fixpoint locate (ks : list Z) (i : nat) (n : Z) : option (nat * Z) :=
  match ks with
  | [] => None
  | k :: ks' => if n <? k then Some (i, n) else locate ks' (S i) (n - k)
  end.
Definition limb_ok (k v : Z) : Prop := 0 <= v < 2 ^ k.

Lemma cat_bit ks : forall x n i0, Forall2 limb_ok ks x -> Forall (fun k => 0 <= k) ks -> 0 <= n ->
  Z.testbit (cat ks x) n =
  match locate ks i0 n with Some (i, b) => Z.testbit (nth (i - i0) x 0) b | None => false end.
Proof.
  induction ks as [|k ks IH]; intros x n i0 H Hk Hn.
  - inversion H; subst. cbn. apply Z.testbit_0_l.
  - inversion H as [|k' v ks' x' [Hv1 Hv2] H']; subst. inversion Hk as [|k' ks' Hk1 Hk2]; subst.
    cbn [cat locate]. 
    assert (E : v + 2 ^ k * cat ks x' = Z.lor v (Z.shiftl (cat ks x') k)).
    { symmetry. apply lor_add; lia. }
    rewrite E, Z.lor_spec, Z.shiftl_spec by lia.
    destruct (Z.ltb_spec n k) as [L|L].
    + rewrite (Z.testbit_neg_r _ (n - k)) by lia. rewrite orb_false_r, Nat.sub_diag. reflexivity.
    + rewrite <- (Z.mod_small v (2 ^ k)) at 1 by lia. rewrite Z.mod_pow2_bits_high by lia. cbn [orb].
      rewrite (IH x' (n - k) (S i0) H' Hk2 ltac:(lia)).
      destruct (locate ks (S i0) (n - k)) as [[i b]|] eqn:EL; [|reflexivity].
      assert (S i0 <= i)%nat.
      { clear - EL. revert EL. generalize (n - k) as n'. generalize (S i0) as i1. induction ks as [|k' ks IH]; cbn; [discriminate|].
        intros i1 n'. destruct (n' <? k'); [intros [= -> _]; lia|]. intros E. apply IH in E. lia. }
      replace (i - i0)%nat with (S (i - S i0)) by lia. reflexivity.
Qed.

(** The bits of [out_byte]: limb and bit of each piece, keeping those inside the limb. *)
Definition pbits (ks : list Z) (ps : list piece) (m : Z) : list (nat * Z) :=
  filter (fun ib => (0 <=? snd ib) && (snd ib <? nth (fst ib) ks 0)) (map (fun p => (fst p, m + snd p)) ps).
Definition same_bit (ks : list Z) (ps : list piece) (n : Z) : bool :=
  match pbits ks ps (n mod 8), locate ks 0 n with
  | [(i, b)], Some (j, c) => Nat.eqb i j && (b =? c)
  | [], None => true
  | _, _ => false
  end.
Definition out_ok (ks : list Z) (pss : list (list piece)) : bool :=
  forallb (fun ps => forallb (fun p => (fst p <? length ks)%nat) ps) pss &&
  forallb (fun n => same_bit ks (nth (n / 8) pss []) (Z.of_nat n)) (seq 0 (8 * length pss)).

Lemma pbits_spec ks x ps m : Forall2 limb_ok ks x -> Forall (fun k => 0 <= k) ks ->
  forallb (fun p : piece => (fst p <? length ks)%nat) ps = true -> 0 <= m < 8 ->
  Z.testbit (out_byte x ps) m = existsb (fun ib => Z.testbit (nth (fst ib) x 0) (snd ib)) (pbits ks ps m).
Proof.
  intros H Hk Hps Hm. unfold out_byte. change 256 with (2 ^ 8). rewrite Z.mod_pow2_bits_low by lia.
  unfold pbits. induction ps as [|[i sh] ps IH]; cbn [fold_right map filter existsb fst snd].
  - apply Z.testbit_0_l.
  - cbn [forallb fst] in Hps. apply andb_prop in Hps. destruct Hps as [Hi Hps]. apply Nat.ltb_lt in Hi.
    rewrite Z.lor_spec, Z.shiftr_spec by lia. rewrite (IH Hps).
    destruct (Z.leb_spec 0 (m + sh)) as [L|L]; cbn [andb]; [|rewrite Z.testbit_neg_r by lia; reflexivity].
    destruct (Z.ltb_spec (m + sh) (nth i ks 0)) as [L2|L2]; [reflexivity|].
    assert (B : limb_ok (nth i ks 0) (nth i x 0) /\ 0 <= nth i ks 0).
    { clear - H Hi Hk. revert i Hi. induction H as [|k v ks x Hv H IH]; intros i Hi; [cbn in Hi; lia|].
      inversion Hk; subst. destruct i; cbn; [auto|]. apply IH; [assumption|cbn in Hi; lia]. }
    destruct B as [[B1 B2] B3]. rewrite <- (Z.mod_small (nth i x 0) (2 ^ nth i ks 0)) by lia.
    rewrite Z.mod_pow2_bits_high by lia. reflexivity.
Qed.

Lemma le2z_bit l : forall n, bytes_ok l -> 0 <= n ->
  Z.testbit (le2z l) n = Z.testbit (nth (Z.to_nat (n / 8)) l 0) (n mod 8).
Proof.
  induction l as [|b l IH]; intros n H Hn; cbn [le2z].
  - destruct (Z.to_nat (n / 8)); cbn; now rewrite !Z.testbit_0_l.
  - inversion H as [|b' l' Hb Hl]; subst. unfold byte_ok in Hb.
    assert (E : b + 256 * le2z l = Z.lor b (Z.shiftl (le2z l) 8)).
    { symmetry. apply (lor_add b (le2z l) 8); [lia|exact Hb]. }
    rewrite E, Z.lor_spec, Z.shiftl_spec by lia.
    destruct (Z_lt_ge_dec n 8) as [L|L].
    + rewrite (Z.testbit_neg_r _ (n - 8)) by lia. rewrite Z.div_small, Z.mod_small by lia. now rewrite orb_false_r.
    + rewrite <- (Z.mod_small b (2 ^ 8)) at 1 by (change (2 ^ 8) with 256; lia).
      rewrite Z.mod_pow2_bits_high by lia. cbn [orb]. rewrite IH by (auto; lia).
      replace (n / 8) with (1 + (n - 8) / 8) by (rewrite <- Z.div_add_l by lia; f_equal; lia).
      replace (n mod 8) with ((n - 8) mod 8) by (rewrite <- (Z.mod_add (n - 8) 1 8) by lia; f_equal; lia).
      assert (0 <= (n - 8) / 8) by (apply Z.div_pos; lia).
      rewrite Z2Nat.inj_add by lia. reflexivity.
Qed.

Lemma out_bytes_ok pss x : bytes_ok (out_bytes pss x).
Proof.
  unfold bytes_ok, out_bytes. apply Forall_forall. intros b Hb. apply in_map_iff in Hb. destruct Hb as (ps & <- & _).
  unfold byte_ok, out_byte. apply Z.mod_pos_bound. lia.
Qed.
Lemma out_bytes_length pss x : length (out_bytes pss x) = length pss.
Proof. apply map_length. Qed.

Lemma out_bytes_value ks pss x : out_ok ks pss = true -> Forall (fun k => 0 <= k) ks -> Forall2 limb_ok ks x ->
  cat ks x < 2 ^ (8 * Z.of_nat (length pss)) -> 0 <= cat ks x ->
  le2z (out_bytes pss x) = cat ks x.
Proof.
  intros Hok Hk H Hlt H0. unfold out_ok in Hok. apply andb_prop in Hok. destruct Hok as [Hps Hb].
  rewrite forallb_forall in Hps, Hb.
  apply Z.bits_inj'. intros n Hn. rewrite le2z_bit by (auto using out_bytes_ok).
  destruct (Z_lt_ge_dec n (8 * Z.of_nat (length pss))) as [L|L].
  - assert (HD : 0 <= n / 8 < Z.of_nat (length pss)).
    { split; [apply Z.div_pos; lia|apply Z.div_lt_upper_bound; lia]. }
    assert (HN : (Z.to_nat (n / 8) < length pss)%nat) by lia.
    unfold out_bytes. rewrite (nth_indep _ 0 (out_byte x [])) by (rewrite map_length; exact HN).
    rewrite map_nth. set (ps := nth (Z.to_nat (n / 8)) pss []).
    assert (HI : forallb (fun p : piece => (fst p <? length ks)%nat) ps = true). { apply Hps, nth_In, HN. }
    rewrite (pbits_spec ks x ps _ H Hk HI) by (apply Z.mod_pos_bound; lia).
    rewrite (cat_bit ks x n 0%nat H Hk Hn).
    specialize (Hb (Z.to_nat n)). rewrite Z2Nat.id in Hb by lia.
    assert (EQ : (Z.to_nat n / 8)%nat = Z.to_nat (n / 8)).
    { apply Nat2Z.inj. rewrite Z2Nat.id by lia. rewrite Nat2Z.inj_div, Z2Nat.id by lia. reflexivity. }
    rewrite EQ in Hb. fold ps in Hb. specialize (Hb ltac:(apply in_seq; lia)). unfold same_bit in Hb.
    destruct (pbits ks ps (n mod 8)) as [|[i b] [|? ?]]; destruct (locate ks 0 n) as [[j c]|]; try discriminate; [reflexivity|].
    apply andb_prop in Hb. destruct Hb as [B1 B2]. apply Nat.eqb_eq in B1. apply Z.eqb_eq in B2. subst.
    cbn [existsb fst snd]. rewrite Nat.sub_0_r, orb_false_r. reflexivity.
  - assert (D : Z.of_nat (length pss) <= n / 8) by (apply Z.div_le_lower_bound; lia).
    rewrite nth_overflow by (rewrite out_bytes_length; lia). rewrite Z.testbit_0_l.
    rewrite <- (Z.mod_small (cat ks x) (2 ^ (8 * Z.of_nat (length pss)))) by lia.
    rewrite Z.mod_pow2_bits_high by lia. reflexivity.
Qed.

(** ** Loads *)
Lemma skipn_le2z n : forall b, bytes_ok b -> le2z (skipn n b) = le2z b / 256 ^ Z.of_nat n.
Proof.
  induction n as [|n IH]; intros b H.
  - cbn [skipn]. change (256 ^ Z.of_nat 0) with 1. now rewrite Z.div_1_r.
  - destruct b as [|h t]; [cbn [skipn le2z]; symmetry; apply Z.div_0_l; apply Z.pow_nonzero; lia|].
    inversion H as [|h' t' Hh Ht]; subst. cbn [skipn le2z]. rewrite (IH t Ht).
    rewrite Nat2Z.inj_succ, Z.pow_succ_r by lia. rewrite <- Z.div_div by (try apply Z.pow_pos_nonneg; lia).
    f_equal. rewrite Z.mul_comm, Z.div_add by lia. rewrite Z.div_small by exact Hh. lia.
Qed.
Lemma firstn_le2z n : forall b, bytes_ok b -> le2z (firstn n b) = le2z b mod 256 ^ Z.of_nat n.
Proof.
  induction n as [|n IH]; intros b H.
  - cbn. now rewrite Z.mod_1_r.
  - destruct b as [|h t]; [cbn [firstn le2z]; symmetry; apply Z.mod_0_l; apply Z.pow_nonzero; lia|].
    inversion H as [|h' t' Hh Ht]; subst. unfold byte_ok in Hh. cbn [firstn le2z]. rewrite (IH t Ht).
    rewrite Nat2Z.inj_succ, Z.pow_succ_r by lia.
    assert (P : 0 < 256 ^ Z.of_nat n) by (apply Z.pow_pos_nonneg; lia).
    rewrite Z.rem_mul_r by lia. 
    replace (h + 256 * le2z t) with (h + le2z t * 256) by lia.
    rewrite Z.mod_add, Z.div_add by lia. rewrite (Z.mod_small h), (Z.div_small h) by lia. reflexivity.
Qed.
Lemma loadn_val off n b : bytes_ok b -> loadn off n b = (le2z b / 256 ^ Z.of_nat off) mod 256 ^ Z.of_nat n.
Proof.
  intros H. unfold loadn. rewrite firstn_le2z by (now apply bytes_ok_skipn). now rewrite skipn_le2z.
Qed.

(** mask & (load >> sh) is the k bits of the number from bit 8*off+sh on *)
Definition ld_ok (k pos : Z) (l : load) : bool :=
  let '(off, n, sh, m) := l in
  (0 <=? sh) && (0 <=? k) && (8 * Z.of_nat off + sh =? pos) && (m =? 2 ^ k - 1) && (sh + k <=? 8 * Z.of_nat n).
Lemma pow256 n : 256 ^ Z.of_nat n = 2 ^ (8 * Z.of_nat n).
Proof. change 256 with (2 ^ 8). rewrite <- Z.pow_mul_r by lia. reflexivity. Qed.

Lemma ld_mask_val b off n sh k : bytes_ok b -> 0 <= sh -> 0 <= k -> sh + k <= 8 * Z.of_nat n ->
  Z.land (2 ^ k - 1) (Z.shiftr (loadn off n b) sh) = (le2z b / 2 ^ (8 * Z.of_nat off + sh)) mod 2 ^ k.
Proof.
  intros Hb Hs Hk Hn. rewrite loadn_val by exact Hb. rewrite !pow256.
  rewrite Z.land_comm. replace (2 ^ k - 1) with (Z.ones k) by (rewrite Z.ones_equiv; lia).
  rewrite Z.land_ones by lia.
  rewrite Z.shiftr_div_pow2 by lia. apply Z.bits_inj'. intros i Hi.
  destruct (Z_lt_ge_dec i k) as [L|L].
  - rewrite !Z.mod_pow2_bits_low by lia. rewrite !Z.div_pow2_bits by lia.
    rewrite Z.mod_pow2_bits_low by lia. rewrite Z.div_pow2_bits by lia. f_equal. lia.
  - now rewrite !Z.mod_pow2_bits_high by lia.
Qed.
Lemma ld_val b k pos l : bytes_ok b -> ld_ok k pos l = true -> ld b l = (le2z b / 2 ^ pos) mod 2 ^ k.
Proof.
  destruct l as [[[off n] sh] m]. unfold ld_ok, ld. intros Hb H.
  rewrite !andb_true_iff, !Z.leb_le, !Z.eqb_eq in H. destruct H as ((((Hs & Hk) & Hp) & Hm) & Hn).
  rewrite Hm, <- Hp. apply ld_mask_val; [exact Hb|lia..].
Qed.
