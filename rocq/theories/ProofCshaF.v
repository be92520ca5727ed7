(** The field functions of curve25519_sha256.go compute modulo 2^255 - 19 and
    never overflow int64 on the limbs they are given. *)
Require Import ZArith List Lia Bool Znumtheory.
Require Import Verif.Base Verif.Words Verif.ModelSlp Verif.ProofSlp Verif.SpecEd Verif.ModelEd Verif.ProofEdF.
Require Import Verif.ModelCshaCode Verif.ModelCsha.
Import ListNotations.
Open Scope Z_scope.

(** ** Rows *)
Fixpoint zrows (vars : list Z) (rs : list (ex * Z * nat)) (c : Z) (out : list Z) : Z * list Z :=
  match rs with
  | [] => (c, out)
  | (e, k, o) :: r => let t := zev (vars ++ [c]) e in zrows vars r (t / 2 ^ k) (upd o (t mod 2 ^ k) out)
  end.
Fixpoint irows (Vs : list itv) (rs : list (ex * Z * nat)) (C : itv) (Os : list itv) : option (itv * list itv) :=
  match rs with
  | [] => Some (C, Os)
  | (e, k, o) :: r =>
      if 0 <=? k then
        match iev (Vs ++ [C]) e with
        | Some (l, h) => irows Vs r (l / 2 ^ k, h / 2 ^ k) (updI o (0, 2 ^ k - 1) Os)
        | None => None end
      else None
  end.
Lemma irows_ok Vs vars : inL Vs vars -> forall rs C c Os out J, inI C c -> inL Os out ->
  irows Vs rs C Os = Some J ->
  cs_rows vars rs c out = zrows vars rs c out /\
  inI (fst J) (fst (zrows vars rs c out)) /\ inL (snd J) (snd (zrows vars rs c out)).
Proof.
  intros HV. induction rs as [|[[e k] o] rs IH]; intros C c Os out J HC HO; cbn [irows cs_rows zrows].
  - intros [= <-]. cbn [fst snd]. auto.
  - destruct (Z.leb_spec 0 k) as [Hk|]; [|discriminate].
    destruct (iev (Vs ++ [C]) e) as [[l h]|] eqn:E; [|discriminate]. intros HJ.
    assert (HVC : inL (Vs ++ [C]) (vars ++ [c])) by (apply inL_app; [exact HV|repeat constructor; apply HC]).
    destruct (iev_ok _ _ _ _ HVC E) as [E1 E2]. rewrite E1. cbn zeta.
    assert (P2 : 0 < 2 ^ k) by (apply Z.pow_pos_nonneg; lia).
    rewrite Z.shiftr_div_pow2 by exact Hk.
    replace (2 ^ k - 1) with (Z.ones k) by (rewrite Z.ones_equiv; lia). rewrite Z.land_ones by exact Hk.
    apply (IH (l / 2 ^ k, h / 2 ^ k) _ (updI o (0, 2 ^ k - 1) Os)); [| |exact HJ].
    + unfold inI in *. cbn [fst snd] in *. split; apply Z.div_le_mono; lia.
    + apply inL_upd; [exact HO|]. pose proof (Z.mod_pos_bound (zev (vars ++ [c]) e) (2 ^ k) P2).
      unfold inI. cbn [fst snd]. lia.
Qed.

(** The coefficient of variable n *)
Fixpoint lin (n : nat) (e : ex) : option Z :=
  match e with
  | V m => Some (if Nat.eqb m n then 1 else 0)
  | M32 _ _ => None
  | K _ => Some 0
  | Add a b => match lin n a, lin n b with Some x, Some y => Some (x + y) | _, _ => None end
  | Mul a b => match lin n a, lin n b with
               | Some 0, Some 0 => Some 0
               | Some 0, Some y => match a with K c => Some (c * y) | _ => None end
               | _, _ => None end
  end.
Lemma nth_app_last vars c m : nth m (vars ++ [c]) 0 = nth m (vars ++ [0]) 0 + (if Nat.eqb m (length vars) then c else 0).
Proof.
  destruct (Nat.eqb_spec m (length vars)) as [->|N].
  - rewrite !nth_middle. lia.
  - rewrite Z.add_0_r. destruct (Nat.ltb_spec m (length vars)).
    + rewrite !app_nth1 by assumption. reflexivity.
    + rewrite !nth_overflow by (rewrite app_length; cbn; lia). reflexivity.
Qed.
Lemma lin_ok vars c e : forall m, lin (length vars) e = Some m ->
  zev (vars ++ [c]) e = zev (vars ++ [0]) e + m * c.
Proof.
  induction e as [n|? ?|k|a IHa b IHb|a IHa b IHb]; intros m; cbn [lin zev].
  - intros [= <-]. rewrite nth_app_last. destruct (Nat.eqb n (length vars)); lia.
  - discriminate.
  - intros [= <-]. lia.
  - destruct (lin _ a) as [x|]; [|discriminate]. destruct (lin _ b) as [y|]; [|discriminate]. intros [= <-].
    rewrite (IHa _ eq_refl), (IHb _ eq_refl). ring.
  - destruct (lin _ a) as [x|]; [|discriminate]. destruct (lin _ b) as [y|]; [|destruct x; discriminate].
    destruct x; try discriminate. rewrite (IHa _ eq_refl), (IHb _ eq_refl).
    destruct y; [intros [= <-]; ring| |]; (destruct a; try discriminate; intros [= <-]; cbn [zev]; ring).
Qed.

(** the weighted sum of the rows without their carries *)
Fixpoint rsum (vars : list Z) (rs : list (ex * Z * nat)) : Z :=
  match rs with [] => 0 | (e, _, o) :: r => nth o wts 0 * zev (vars ++ [0]) e + rsum vars r end.
Fixpoint rchain (n : nat) (W : Z) (rs : list (ex * Z * nat)) (seen : list nat) : option Z :=
  match rs with
  | [] => Some W
  | (e, k, o) :: r =>
      match lin n e with
      | Some m =>
          if (0 <=? k) && ((W - nth o wts 0 * m) mod p25 =? 0) && (o <? 10)%nat && negb (existsb (Nat.eqb o) seen)
          then rchain n (nth o wts 0 * 2 ^ k) r (o :: seen) else None
      | None => None end
  end.
Lemma rchain_ok vars rs : forall W seen c out W', length out = 10%nat ->
  (forall o, existsb (Nat.eqb o) seen = false -> nth o out 0 = 0) ->
  rchain (length vars) W rs seen = Some W' ->
  let r := zrows vars rs c out in
  length (snd r) = 10%nat /\ eqp (dot wts (snd r) + W' * fst r) (dot wts out + W * c + rsum vars rs).
Proof.
  induction rs as [|[[e k] o] rs IH]; intros W seen c out W' HL HS; cbn [rchain zrows rsum].
  - intros [= <-]. cbn [fst snd]. split; [exact HL|]. exists 0. lia.
  - destruct (lin _ e) as [m|] eqn:Em; [|discriminate].
    destruct (Z.leb_spec 0 k) as [Hk|]; [|discriminate].
    destruct (Z.eqb_spec ((W - nth o wts 0 * m) mod p25) 0) as [Hm|]; [|discriminate].
    destruct (Nat.ltb_spec o 10) as [Ho|]; [|discriminate].
    destruct (existsb (Nat.eqb o) seen) eqn:Es; [discriminate|]. cbn [andb negb]. intros HR.
    assert (P2 : 0 < 2 ^ k) by (apply Z.pow_pos_nonneg; lia).
    pose proof (lin_ok vars c e m Em) as EL. cbn zeta.
    set (t := zev (vars ++ [c]) e) in *.
    assert (HL2 : length (upd o (t mod 2 ^ k) out) = 10%nat) by (rewrite upd_length; exact HL).
    assert (HS2 : forall j, existsb (Nat.eqb j) (o :: seen) = false -> nth j (upd o (t mod 2 ^ k) out) 0 = 0).
    { intros j Hj. cbn in Hj. apply orb_false_elim in Hj. destruct Hj as [H1 H2].
      rewrite nth_upd_ne by (apply Nat.eqb_neq in H1; congruence). apply HS, H2. }
    destruct (IH _ _ (t / 2 ^ k) _ _ HL2 HS2 HR) as [A [q B]]. split; [exact A|].
    rewrite dot_upd in B by (rewrite ?HL; first [lia|reflexivity]). rewrite (HS _ Es) in B.
    apply Z.mod_divide in Hm; [|discriminate]. destruct Hm as [q2 Hm].
    pose proof (Z.div_mod t (2 ^ k) ltac:(lia)) as D.
    exists (q - c * q2). rewrite Z.mul_sub_distr_r. replace (c * q2 * p25) with (c * (W - nth o wts 0 * m)) by (rewrite Hm; ring).
    rewrite <- B. clear - EL D.
    replace (nth o wts 0 * zev (vars ++ [0]) e) with (nth o wts 0 * t - nth o wts 0 * m * c) by (rewrite EL; ring).
    replace (nth o wts 0 * t) with (nth o wts 0 * (2 ^ k * (t / 2 ^ k) + t mod 2 ^ k)) by (rewrite <- D; reflexivity).
    ring.
Qed.

(** ** The last statements *)
Definition zfinal (co : Z * list Z) : list Z :=
  let '(c, out) := co in
  let t := c + nth 8 out 0 in
  let out := upd 8 (t mod 2 ^ 26) out in
  upd 9 (nth 9 out 0 + t / 2 ^ 26) out.
Definition ifinal (J : itv * list itv) : option (list itv) :=
  let '(C, Os) := J in
  let T := addI C (nth 8 Os (0, 0)) in
  if Nat.eqb (length Os) 10 && fits 64 T then
    let N := addI (nth 9 Os (0, 0)) (fst T / 2 ^ 26, snd T / 2 ^ 26) in
    if fits 64 N then Some (updI 9 N (updI 8 (0, 2 ^ 26 - 1) Os)) else None
  else None.
Lemma Some_inj {A} (a b : A) : Some a = Some b -> a = b. Proof. congruence. Qed.
Lemma ifinal_ok J co R : inI (fst J) (fst co) -> inL (snd J) (snd co) -> ifinal J = Some R ->
  cs_final co = zfinal co /\ inL R (zfinal co).
Proof.
  destruct J as [C Os], co as [c out]. cbn [fst snd ifinal cs_final zfinal]. intros HC HO.
  destruct (Nat.eqb_spec (length Os) 10) as [HL|]; [|discriminate]. cbn [andb].
  destruct (fits 64 (addI C (nth 8 Os (0, 0)))) eqn:F1; [|discriminate].
  destruct (fits 64 (addI (nth 9 Os (0, 0)) _)) eqn:F2; [|discriminate]. intros ER. apply Some_inj in ER. subst R.
  assert (G1 := addI_ok _ _ _ _ HC (inL_nth _ _ 8%nat HO ltac:(lia))).
  unfold i64. rewrite (fits_sgn 64 _ _ eq_refl F1 G1). cbn zeta.
  change (2 ^ 26 - 1) with (Z.ones 26). rewrite Z.land_ones, Z.shiftr_div_pow2 by lia.
  assert (G2 : inI (fst (addI C (nth 8 Os (0, 0))) / 2 ^ 26, snd (addI C (nth 8 Os (0, 0))) / 2 ^ 26) ((c + nth 8 out 0) / 2 ^ 26)).
  { unfold inI in *. cbn [fst snd] in *. split; apply Z.div_le_mono; lia. }
  assert (G3 := addI_ok _ _ _ _ (inL_nth _ _ 9%nat HO ltac:(lia)) G2).
  rewrite nth_upd_ne by discriminate.
  rewrite (fits_sgn 64 _ _ eq_refl F2 G3). split; [reflexivity|].
  apply inL_upd; [|exact G3]. apply inL_upd; [exact HO|].
  pose proof (Z.mod_pos_bound (c + nth 8 out 0) (2 ^ 26) eq_refl). unfold inI. cbn [fst snd].
  change (Z.ones 26) with (2 ^ 26 - 1). lia.
Qed.
Lemma zfinal_val c out : length out = 10%nat -> fev (zfinal (c, out)) = fev out + 2 ^ 204 * c.
Proof.
  intros HL. unfold zfinal, fev. cbn zeta. rewrite nth_upd_ne by discriminate.
  rewrite dot_upd by (rewrite ?upd_length, ?HL; first [lia|reflexivity]).
  rewrite dot_upd by (rewrite ?HL; first [lia|reflexivity]). rewrite nth_upd_ne by discriminate.
  cbn [nth wts].
  pose proof (Z.div_mod (c + nth 8 out 0) (2 ^ 26) ltac:(lia)) as D.
  set (u := (c + nth 8 out 0) mod 2 ^ 26) in *. set (w := (c + nth 8 out 0) / 2 ^ 26) in *. clearbody u w.
  replace (nth 8 out 0) with (2 ^ 26 * w + u - c) by lia. ring.
Qed.

(** ** Bounds: what the multiplications return, and what they accept *)
Definition csm : list itv :=
  [(0, 2^26-1); (0, 2^25-1); (0, 2^26-1); (0, 2^25-1); (0, 2^26-1); (0, 2^25-1); (0, 2^26-1); (0, 2^25-1); (0, 2^26-1); (- 2^12, 2^25 + 2^12)].
Definition csw : list itv := bd (3 * 2^26) (3 * 2^25 + 2^14).
Definition rd (x : long10) : Prop := inL csm x.
Definition wd (x : long10) : Prop := inL csw x.
Lemma rd_wd x : rd x -> wd x.
Proof. apply subL_ok. vm_compute. reflexivity. Qed.

Lemma rows_ok Vs vars rs : inL Vs vars -> rchain (length vars) 0 rs [] = Some (2 ^ 204) ->
  (match irows Vs rs (0, 0) (repeat (0, 0) 10) with
   | Some J => match ifinal J with Some R => subL R csm | None => false end
   | None => false end) = true ->
  rd (cs_final (cs_rows vars rs 0 zero10)) /\ eqp (fev (cs_final (cs_rows vars rs 0 zero10))) (rsum vars rs).
Proof.
  intros HV HR HI. destruct (irows Vs rs _ _) as [J|] eqn:EJ; [|discriminate].
  destruct (ifinal J) as [R|] eqn:ER; [|discriminate].
  assert (Z0 : inL (repeat (0, 0) 10) zero10) by (repeat constructor; cbn; lia).
  destruct (irows_ok Vs vars HV rs (0, 0) 0 _ zero10 J ltac:(unfold inI; cbn; lia) Z0 EJ) as (E1 & A & B).
  rewrite E1. destruct (ifinal_ok _ _ _ A B ER) as [E2 C]. rewrite E2. split; [exact (subL_ok _ _ _ HI C)|].
  destruct (rchain_ok vars rs 0 [] 0 zero10 (2 ^ 204) eq_refl) as [L D]; [|exact HR|].
  { intros o _. unfold zero10. apply nth_repeat. }
  destruct (zrows vars rs 0 zero10) as [c out]. cbn [fst snd] in *. rewrite zfinal_val by exact L.
  destruct D as [q D]. exists q. rewrite <- D. unfold fev. change (dot wts zero10) with 0. ring.
Qed.

Lemma inL10 a b c d e f g h i j x : inL [a;b;c;d;e;f;g;h;i;j] x ->
  exists x0 x1 x2 x3 x4 x5 x6 x7 x8 x9, x = [x0;x1;x2;x3;x4;x5;x6;x7;x8;x9].
Proof.
  intros H. apply inL_length in H. do 10 (destruct x as [|? x]; [discriminate|]). destruct x; [|discriminate].
  do 10 eexists. reflexivity.
Qed.

Lemma cs_mul_ok x y : wd x -> wd y -> rd (cs_mul x y) /\ eqp (fev (cs_mul x y)) (fev x * fev y).
Proof.
  intros F G. pose proof (inL_app _ _ _ _ F G) as FG.
  destruct (inL10 _ _ _ _ _ _ _ _ _ _ _ F) as (f0&f1&f2&f3&f4&f5&f6&f7&f8&f9&->).
  destruct (inL10 _ _ _ _ _ _ _ _ _ _ _ G) as (g0&g1&g2&g3&g4&g5&g6&g7&g8&g9&->).
  destruct (rows_ok _ _ cs_mul_rows FG) as [A B]; [vm_compute; reflexivity|vm_compute; reflexivity|].
  split; [exact A|]. refine (eqp_trans _ _ _ B _). clear.
  exists (- (1 * (2*f1*g9 + f2*g8 + 2*f3*g7 + f4*g6 + 2*f5*g5 + f6*g4 + 2*f7*g3 + f8*g2 + 2*f9*g1)
     + 2^26 * (f2*g9 + f3*g8 + f4*g7 + f5*g6 + f6*g5 + f7*g4 + f8*g3 + f9*g2)
     + 2^51 * (2*f3*g9 + f4*g8 + 2*f5*g7 + f6*g6 + 2*f7*g5 + f8*g4 + 2*f9*g3)
     + 2^77 * (f4*g9 + f5*g8 + f6*g7 + f7*g6 + f8*g5 + f9*g4)
     + 2^102 * (2*f5*g9 + f6*g8 + 2*f7*g7 + f8*g6 + 2*f9*g5)
     + 2^128 * (f6*g9 + f7*g8 + f8*g7 + f9*g6)
     + 2^153 * (2*f7*g9 + f8*g8 + 2*f9*g7)
     + 2^179 * (f8*g9 + f9*g8)
     + 2^204 * (2*f9*g9))).
  unfold fev, wts, p25, cs_mul_rows. cbn [app rsum]. unfold wts. cbn [zev nth dot]. ring.
Qed.
Lemma cs_sqr_ok x : wd x -> rd (cs_sqr x) /\ eqp (fev (cs_sqr x)) (fev x * fev x).
Proof.
  intros F. pose proof F as F'.
  destruct (inL10 _ _ _ _ _ _ _ _ _ _ _ F) as (f0&f1&f2&f3&f4&f5&f6&f7&f8&f9&->).
  destruct (rows_ok _ _ cs_sqr_rows F') as [A B]; [vm_compute; reflexivity|vm_compute; reflexivity|].
  split; [exact A|]. refine (eqp_trans _ _ _ B _). clear.
  exists (- (1 * (2*f1*f9 + f2*f8 + 2*f3*f7 + f4*f6 + 2*f5*f5 + f6*f4 + 2*f7*f3 + f8*f2 + 2*f9*f1)
     + 2^26 * (f2*f9 + f3*f8 + f4*f7 + f5*f6 + f6*f5 + f7*f4 + f8*f3 + f9*f2)
     + 2^51 * (2*f3*f9 + f4*f8 + 2*f5*f7 + f6*f6 + 2*f7*f5 + f8*f4 + 2*f9*f3)
     + 2^77 * (f4*f9 + f5*f8 + f6*f7 + f7*f6 + f8*f5 + f9*f4)
     + 2^102 * (2*f5*f9 + f6*f8 + 2*f7*f7 + f8*f6 + 2*f9*f5)
     + 2^128 * (f6*f9 + f7*f8 + f8*f7 + f9*f6)
     + 2^153 * (2*f7*f9 + f8*f8 + 2*f9*f7)
     + 2^179 * (f8*f9 + f9*f8)
     + 2^204 * (2*f9*f9))).
  unfold fev, wts, p25, cs_sqr_rows. cbn [app rsum]. unfold wts. cbn [zev nth dot]. ring.
Qed.
Lemma cs_mulSmall_ok x y : wd x -> 0 <= y <= 486662 -> rd (cs_mulSmall x y) /\ eqp (fev (cs_mulSmall x y)) (fev x * y).
Proof.
  intros F Hy. assert (FY : inL (csw ++ [(0, 486662)]) (x ++ [y])) by (apply inL_app; [exact F|repeat constructor; apply Hy]).
  destruct (inL10 _ _ _ _ _ _ _ _ _ _ _ F) as (f0&f1&f2&f3&f4&f5&f6&f7&f8&f9&->).
  destruct (rows_ok _ _ cs_mulSmall_rows FY) as [A B]; [vm_compute; reflexivity|vm_compute; reflexivity|].
  split; [exact A|]. refine (eqp_trans _ _ _ B _). clear.
  exists 0. unfold fev, wts, p25, cs_mulSmall_rows. cbn [app rsum]. unfold wts. cbn [zev nth dot]. ring.
Qed.

(** ** Sums and constants *)
Definition cadd (a b : list itv) : list itv := map (fun p => addI (fst p) (snd p)) (combine a b).
Definition csub (a b : list itv) : list itv := map (fun p => (fst (fst p) - snd (snd p), snd (fst p) - fst (snd p))) (combine a b).
Lemma cs_add_ok Xs x : inL Xs x -> forall Ys y, inL Ys y -> forallb (fits 64) (cadd Xs Ys) = true ->
  inL (cadd Xs Ys) (cs_add x y) /\ forall ws, length Xs = length Ys -> dot ws (cs_add x y) = dot ws x + dot ws y.
Proof.
  intros H. induction H as [|I v Xs x HI H IH]; intros Ys y G F.
  - split; [constructor|]. intros ws L. destruct G; [|discriminate]. destruct ws; reflexivity.
  - destruct G as [|J u Ys y HJ G].
    + split; [constructor|]. intros ws L. discriminate.
    + change (forallb (fits 64) (addI I J :: cadd Xs Ys) = true) in F. cbn [forallb] in F.
      apply andb_prop in F. destruct F as [F1 F2].
      destruct (IH Ys y G F2) as [A B]. pose proof (addI_ok _ _ _ _ HI HJ) as GI.
      assert (E : i64 (v + u) = v + u) by exact (fits_sgn 64 _ _ eq_refl F1 GI).
      change (cs_add (v :: x) (u :: y)) with (i64 (v + u) :: cs_add x y). rewrite E.
      split; [constructor; assumption|]. intros [|w ws] L; [reflexivity|]. cbn [dot]. rewrite B by (injection L; auto). lia.
Qed.
Lemma subI_ok (a b : itv) x y : inI a x -> inI b y -> inI (fst a - snd b, snd a - fst b) (x - y).
Proof. unfold inI. cbn. lia. Qed.
Lemma cs_sub_ok Xs x : inL Xs x -> forall Ys y, inL Ys y -> forallb (fits 64) (csub Xs Ys) = true ->
  inL (csub Xs Ys) (cs_sub x y) /\ forall ws, length Xs = length Ys -> dot ws (cs_sub x y) = dot ws x - dot ws y.
Proof.
  intros H. induction H as [|I v Xs x HI H IH]; intros Ys y G F.
  - split; [constructor|]. intros ws L. destruct G; [|discriminate]. destruct ws; reflexivity.
  - destruct G as [|J u Ys y HJ G].
    + split; [constructor|]. intros ws L. discriminate.
    + change (forallb (fits 64) ((fst I - snd J, snd I - fst J) :: csub Xs Ys) = true) in F. cbn [forallb] in F.
      apply andb_prop in F. destruct F as [F1 F2].
      destruct (IH Ys y G F2) as [A B]. pose proof (subI_ok _ _ _ _ HI HJ) as GI.
      assert (E : i64 (v - u) = v - u) by exact (fits_sgn 64 _ _ eq_refl F1 GI).
      change (cs_sub (v :: x) (u :: y)) with (i64 (v - u) :: cs_sub x y). rewrite E.
      split; [constructor; assumption|]. intros [|w ws] L; [reflexivity|]. cbn [dot]. rewrite B by (injection L; auto). lia.
Qed.
(** sums and differences of two reduced values, and a constant on top *)
Definition cs2 : list itv := bd (2 * 2 ^ 26) (2 * 2 ^ 25 + 2 ^ 13).
Definition rd2 (x : long10) : Prop := inL cs2 x.
Lemma rd2_wd x : rd2 x -> wd x. Proof. apply subL_ok. vm_compute. reflexivity. Qed.
Lemma rd_rd2 x : rd x -> rd2 x. Proof. apply subL_ok. vm_compute. reflexivity. Qed.
Lemma add_rd x y : rd x -> rd y -> rd2 (cs_add x y) /\ fev (cs_add x y) = fev x + fev y.
Proof.
  intros A B. destruct (cs_add_ok _ _ A _ _ B) as [C D]; [vm_compute; reflexivity|].
  split; [|exact (D wts eq_refl)]. revert C. apply subL_ok. vm_compute. reflexivity.
Qed.
Lemma sub_rd x y : rd x -> rd y -> rd2 (cs_sub x y) /\ fev (cs_sub x y) = fev x - fev y.
Proof.
  intros A B. destruct (cs_sub_ok _ _ A _ _ B) as [C D]; [vm_compute; reflexivity|].
  split; [|exact (D wts eq_refl)]. revert C. apply subL_ok. vm_compute. reflexivity.
Qed.
Lemma add_rd2 x y : rd2 x -> rd y -> wd (cs_add x y) /\ fev (cs_add x y) = fev x + fev y.
Proof.
  intros A B. destruct (cs_add_ok _ _ A _ _ B) as [C D]; [vm_compute; reflexivity|].
  split; [|exact (D wts eq_refl)]. revert C. apply subL_ok. vm_compute. reflexivity.
Qed.
Lemma sub_rd2 x y : rd2 x -> rd y -> wd (cs_sub x y) /\ fev (cs_sub x y) = fev x - fev y.
Proof.
  intros A B. destruct (cs_sub_ok _ _ A _ _ B) as [C D]; [vm_compute; reflexivity|].
  split; [|exact (D wts eq_refl)]. revert C. apply subL_ok. vm_compute. reflexivity.
Qed.
Lemma add0_gen Is x v J : inL Is x -> length Is = 10%nat -> inI J v -> fits 64 (addI (nth 0 Is (0, 0)) J) = true ->
  inL (updI 0 (addI (nth 0 Is (0, 0)) J) Is) (cs_add0 x v) /\ fev (cs_add0 x v) = fev x + v.
Proof.
  intros H HL HJ F. pose proof (addI_ok _ _ _ _ (inL_nth _ _ 0%nat H ltac:(lia)) HJ) as G. unfold cs_add0.
  assert (E : i64 (nth 0 x 0 + v) = nth 0 x 0 + v) by exact (fits_sgn 64 _ _ eq_refl F G).
  rewrite E. split; [apply inL_upd; assumption|]. unfold fev. pose proof (inL_length _ _ H) as LX.
  rewrite dot_upd by (rewrite ?LX; rewrite HL; first [lia|reflexivity]). cbn [nth wts]. lia.
Qed.
Lemma add0_rd x v : rd x -> - 2 ^ 26 <= v <= 2 ^ 26 -> rd2 (cs_add0 x v) /\ fev (cs_add0 x v) = fev x + v.
Proof.
  intros A B. destruct (add0_gen csm x v (- 2 ^ 26, 2 ^ 26) A eq_refl B) as [C D]; [vm_compute; reflexivity|].
  split; [|exact D]. revert C. apply subL_ok. vm_compute. reflexivity.
Qed.
Lemma add0_rd2 x v : rd2 x -> - 2 ^ 26 <= v <= 2 ^ 26 -> wd (cs_add0 x v) /\ fev (cs_add0 x v) = fev x + v.
Proof.
  intros A B. destruct (add0_gen cs2 x v (- 2 ^ 26, 2 ^ 26) A eq_refl B) as [C D]; [vm_compute; reflexivity|].
  split; [|exact D]. revert C. apply subL_ok. vm_compute. reflexivity.
Qed.
Lemma set_rd v : 0 <= v < 2 ^ 26 -> rd (cs_set v) /\ fev (cs_set v) = v.
Proof.
  intros H. split; [|unfold fev, cs_set, wts; cbn [repeat dot]; lia].
  unfold rd, inL, csm, cs_set. cbn [repeat]. repeat constructor; unfold inI; cbn [fst snd]; try lia.
Qed.

(** ** The canonical value *)
Lemma land_max k a b : 0 <= k -> 0 <= a < 2 ^ k -> (Z.land a b = 2 ^ k - 1 <-> a = 2 ^ k - 1 /\ b mod 2 ^ k = 2 ^ k - 1).
Proof.
  intros Hk Ha. replace (2 ^ k - 1) with (Z.ones k) by (rewrite Z.ones_equiv; lia).
  assert (Ea : Z.land a (Z.ones k) = a) by (rewrite Z.land_ones, Z.mod_small by lia; reflexivity).
  rewrite <- Z.land_ones by exact Hk. split.
  - intros E. split.
    + apply Z.bits_inj'. intros i Hi. destruct (Z.ltb_spec i k) as [L|L].
      * assert (T : Z.testbit (Z.land a b) i = true) by (rewrite E; apply Z.ones_spec_low; lia).
        rewrite Z.land_spec in T. apply andb_prop in T. destruct T as [T _]. rewrite T, Z.ones_spec_low by lia. reflexivity.
      * rewrite <- Ea, Z.land_spec, Z.ones_spec_high by lia. now rewrite andb_false_r.
    + apply Z.bits_inj'. intros i Hi. rewrite Z.land_spec. destruct (Z.ltb_spec i k) as [L|L].
      * assert (T : Z.testbit (Z.land a b) i = true) by (rewrite E; apply Z.ones_spec_low; lia).
        rewrite Z.land_spec in T. apply andb_prop in T. destruct T as [_ T]. rewrite T, Z.ones_spec_low by lia. reflexivity.
      * rewrite Z.ones_spec_high by lia. now rewrite andb_false_r.
  - intros [-> E]. rewrite Z.land_comm. exact E.
Qed.
Lemma land_lt k a b : 0 <= k -> 0 <= a < 2 ^ k -> 0 <= Z.land a b < 2 ^ k.
Proof.
  intros Hk Ha. assert (E : Z.land a b = Z.land (Z.land a b) (Z.ones k)).
  { rewrite <- Z.land_assoc, (Z.land_comm b), Z.land_assoc, (Z.land_ones a), Z.mod_small by lia. reflexivity. }
  rewrite E, Z.land_ones by exact Hk. apply Z.mod_pos_bound. apply Z.pow_pos_nonneg; lia.
Qed.
(** the same with 26 bits in the last limb, as unpack delivers them *)
Definition csu : list itv :=
  [(0, 2^26-1); (0, 2^25-1); (0, 2^26-1); (0, 2^25-1); (0, 2^26-1); (0, 2^25-1); (0, 2^26-1); (0, 2^25-1); (0, 2^26-1); (- 2^12, 2^26)].
Definition rdu (x : long10) : Prop := inL csu x.
Lemma rd_rdu x : rd x -> rdu x. Proof. apply subL_ok. vm_compute. reflexivity. Qed.
Lemma rd_top x : rd x -> - 2^12 <= nth 9 x 0 <= 2^25 + 2^12.
Proof. intros H. exact (inL_nth _ _ 9%nat H ltac:(cbn; lia)). Qed.
Definition low9 (x : long10) : Z := dot (firstn 9 wts) x.
Lemma rd_ten x : rdu x -> exists x0 x1 x2 x3 x4 x5 x6 x7 x8 x9, x = [x0;x1;x2;x3;x4;x5;x6;x7;x8;x9] /\
  0 <= x0 < 2^26 /\ 0 <= x1 < 2^25 /\ 0 <= x2 < 2^26 /\ 0 <= x3 < 2^25 /\ 0 <= x4 < 2^26 /\
  0 <= x5 < 2^25 /\ 0 <= x6 < 2^26 /\ 0 <= x7 < 2^25 /\ 0 <= x8 < 2^26 /\ - 2^12 <= x9 <= 2^26.
Proof.
  intros H. destruct (inL10 _ _ _ _ _ _ _ _ _ _ _ H) as (x0&x1&x2&x3&x4&x5&x6&x7&x8&x9&->).
  do 10 eexists. split; [reflexivity|]. unfold rdu, csu, inL in H.
  repeat match goal with X : Forall2 _ (_ :: _) _ |- _ => inversion X; clear X; subst
                       | X : Forall2 _ [] _ |- _ => inversion X; clear X; subst end.
  unfold inI in *. cbn [fst snd] in *. repeat split; lia.
Qed.
Lemma overflow_ok x : rdu x ->
  0 <= low9 x < 2 ^ 230 /\ fev x = low9 x + 2 ^ 230 * nth 9 x 0 /\ - 2^12 <= nth 9 x 0 <= 2^26 /\
  (cs_isOverflow x = true <-> (2 ^ 230 - 19 <= low9 x /\ (nth 9 x 0 = -1 \/ nth 9 x 0 = 2 ^ 25 - 1)) \/ 2 ^ 25 <= nth 9 x 0) /\
  low9 x mod 2 = Z.land (nth 0 x 0) 1.
Proof.
  intros H. destruct (rd_ten x H) as (x0&x1&x2&x3&x4&x5&x6&x7&x8&x9&->&B0&B1&B2&B3&B4&B5&B6&B7&B8&B9).
  unfold cs_isOverflow, low9, fev, wts. cbn [firstn nth dot].
  assert (E : Z.land x0 1 = x0 mod 2) by (exact (Z.land_ones x0 1 ltac:(lia))). rewrite E. clear E H.
  split; [lia|]. split; [lia|]. split; [exact B9|]. split; [|lia].
  rewrite orb_true_iff, !andb_true_iff, !Z.ltb_lt, !Z.eqb_eq. unfold p26m, p25m.
  assert (A1 : Z.land (Z.land (Z.land (Z.land x1 x3) x5) x7) x9 = 33554431 <->
    x1 = 33554431 /\ x3 = 33554431 /\ x5 = 33554431 /\ x7 = 33554431 /\ (x9 = -1 \/ x9 = 33554431 \/ x9 = 2 ^ 26 - 1)).
  { pose proof (land_lt 25 x1 x3 ltac:(lia) B1) as L1. pose proof (land_lt 25 _ x5 ltac:(lia) L1) as L2.
    pose proof (land_lt 25 _ x7 ltac:(lia) L2) as L3.
    change 33554431 with (2 ^ 25 - 1).
    rewrite (land_max 25 _ x9 ltac:(lia) L3), (land_max 25 _ x7 ltac:(lia) L2), (land_max 25 _ x5 ltac:(lia) L1), (land_max 25 _ x3 ltac:(lia) B1).
    rewrite !(Z.mod_small x3), !(Z.mod_small x5), !(Z.mod_small x7) by assumption.
    assert (M : x9 mod 2 ^ 25 = 2 ^ 25 - 1 <-> x9 = -1 \/ x9 = 2 ^ 25 - 1 \/ x9 = 2 ^ 26 - 1) by lia. rewrite M. tauto. }
  assert (A2 : Z.land (Z.land (Z.land x2 x4) x6) x8 = 67108863 <->
    x2 = 67108863 /\ x4 = 67108863 /\ x6 = 67108863 /\ x8 = 67108863).
  { pose proof (land_lt 26 x2 x4 ltac:(lia) B2) as L1. pose proof (land_lt 26 _ x6 ltac:(lia) L1) as L2.
    change 67108863 with (2 ^ 26 - 1).
    rewrite (land_max 26 _ x8 ltac:(lia) L2), (land_max 26 _ x6 ltac:(lia) L1), (land_max 26 _ x4 ltac:(lia) B2).
    rewrite !(Z.mod_small x4), !(Z.mod_small x6), !(Z.mod_small x8) by assumption. tauto. }
  rewrite A1, A2. clear A1 A2. split.
  - intros [((C1 & (-> & -> & -> & -> & C2)) & (-> & -> & -> & ->)) | C]; [|right; lia].
    destruct C2 as [C2|[C2|C2]]; [left; lia|left; lia|right; lia].
  - intros [[C1 C2]|C]; [left|right; lia].
    assert (x8 = 67108863) by lia. assert (x7 = 33554431) by lia. assert (x6 = 67108863) by lia. assert (x5 = 33554431) by lia.
    assert (x4 = 67108863) by lia. assert (x3 = 33554431) by lia. assert (x2 = 67108863) by lia. assert (x1 = 33554431) by lia.
    subst. repeat split; try reflexivity; try lia.
Qed.

Lemma cs_isNegative_ok x : rd x -> cs_isNegative x = (fev x mod p25) mod 2.
Proof.
  intros H. destruct (overflow_ok x (rd_rdu x H)) as (B & E & _ & O & P). pose proof (rd_top x H) as B9. unfold cs_isNegative. rewrite <- P, E. clear P E H.
  set (l := low9 x) in *. set (g := nth 9 x 0) in *. clearbody l g.
  assert (PV : p25 = 2 ^ 255 - 19) by reflexivity.
  assert (L : forall b, b = 0 \/ b = 1 -> Z.lxor 1 b = 1 - b) by (intros b [-> | ->]; reflexivity).
  assert (M2 : l mod 2 = 0 \/ l mod 2 = 1) by lia.
  destruct (Z.ltb_spec g 0) as [N|N].
  - rewrite orb_true_r, L by exact M2.
    rewrite <- (Z.mod_unique_pos (l + 2 ^ 230 * g) p25 (-1) (l + 2 ^ 230 * g + p25)) by lia. rewrite PV. clear O. lia.
  - rewrite orb_false_r. destruct (cs_isOverflow x) eqn:EO.
    + rewrite L by exact M2. assert (G : 2 ^ 255 - 19 <= l + 2 ^ 230 * g).
      { destruct (proj1 O eq_refl) as [[A [C|C]]|C]; lia. }
      rewrite <- (Z.mod_unique_pos (l + 2 ^ 230 * g) p25 1 (l + 2 ^ 230 * g - p25)) by lia. rewrite PV. clear O. lia.
    + change (Z.lxor 0 (l mod 2)) with (l mod 2).
      assert (G : ~ 2 ^ 255 - 19 <= l + 2 ^ 230 * g).
      { intros G. assert (X : false = true); [|discriminate X]. apply O.
        destruct (Z.leb_spec (2 ^ 25) g); [right; assumption|left]. lia. }
      rewrite (Z.mod_small (l + 2 ^ 230 * g)) by lia. clear O. lia.
Qed.

(** ** Bytes *)
Lemma four_z2le t : four t = z2le 4 t.
Proof.
  unfold four. cbn [map z2le]. rewrite Z.shiftr_0_r, !Z.shiftr_div_pow2 by lia.
  rewrite !Z.div_div by lia. reflexivity.
Qed.
Lemma four_more n t R : z2le (4 + n) (t + 2 ^ 32 * R) = four t ++ z2le n (Z.shiftr t 32 + R).
Proof.
  rewrite four_z2le, Z.shiftr_div_pow2 by lia.
  assert (A : forall a z, z2le (a + n) z = z2le a z ++ z2le n (z / 256 ^ Z.of_nat a)).
  { induction a as [|a IH]; intros z; [rewrite Z.div_1_r; reflexivity|].
    change (S a + n)%nat with (S (a + n)). cbn [z2le app]. rewrite IH.
    rewrite Zdiv.Zdiv_Zdiv by (try lia; apply Z.pow_nonneg; lia). rewrite <- Z.pow_succ_r by lia. rewrite <- Nat2Z.inj_succ. reflexivity. }
  rewrite A. f_equal.
  - cbn [z2le]. rewrite !Zdiv.Zdiv_Zdiv by lia. f_equal; [lia|]. f_equal; [lia|]. f_equal; [lia|]. f_equal. lia.
  - f_equal. change (256 ^ Z.of_nat 4) with (2 ^ 32). lia.
Qed.
Lemma four_end t : four t = z2le 4 t. Proof. exact (four_z2le t). Qed.
Lemma i64_id x : - 2 ^ 63 <= x < 2 ^ 63 -> i64 x = x.
Proof. intros H. apply sgn_id; [lia|exact H]. Qed.
Lemma pack_chain a0 a1 a2 a3 a4 a5 a6 a7 t0 t1 t2 t3 t4 t5 t6 t7 :
  t0 = a0 -> t1 = Z.shiftr t0 32 + a1 -> t2 = Z.shiftr t1 32 + a2 -> t3 = Z.shiftr t2 32 + a3 ->
  t4 = Z.shiftr t3 32 + a4 -> t5 = Z.shiftr t4 32 + a5 -> t6 = Z.shiftr t5 32 + a6 -> t7 = Z.shiftr t6 32 + a7 ->
  four t0 ++ four t1 ++ four t2 ++ four t3 ++ four t4 ++ four t5 ++ four t6 ++ four t7 =
  z2le (4 + (4 + (4 + (4 + (4 + (4 + (4 + 4))))))) (a0 + 2 ^ 32 * (a1 + 2 ^ 32 * (a2 + 2 ^ 32 * (a3 + 2 ^ 32 * (a4 + 2 ^ 32 * (a5 + 2 ^ 32 * (a6 + 2 ^ 32 * a7))))))).
Proof.
  intros <- E1 E2 E3 E4 E5 E6 E7.
  assert (S : forall n t t' a R, t' = Z.shiftr t 32 + a -> z2le (4 + n) (t + 2 ^ 32 * (a + R)) = four t ++ z2le n (t' + R)).
  { intros n t t' a R ->. rewrite four_more, Z.add_assoc. reflexivity. }
  assert (S7 : forall n t t' a, t' = Z.shiftr t 32 + a -> z2le (4 + n) (t + 2 ^ 32 * a) = four t ++ z2le n t').
  { intros n t t' a ->. apply four_more. }
  rewrite (S _ _ _ _ _ E1), (S _ _ _ _ _ E2), (S _ _ _ _ _ E3), (S _ _ _ _ _ E4), (S _ _ _ _ _ E5), (S _ _ _ _ _ E6), (S7 _ _ _ _ E7).
  rewrite (four_z2le t7). reflexivity.
Qed.
Lemma shr_range t n : - 2 ^ 60 <= t <= 2 ^ 60 -> - 2 ^ 58 <= n <= 2 ^ 58 ->
  i64 (Z.shiftr t 32 + n) = Z.shiftr t 32 + n /\ - 2 ^ 60 <= Z.shiftr t 32 + n <= 2 ^ 60 /\ - 2 ^ 59 <= Z.shiftr t 32 + n <= 2 ^ 59.
Proof.
  intros A B. rewrite Z.shiftr_div_pow2 by lia. assert (C : - 2 ^ 28 <= t / 2 ^ 32 <= 2 ^ 28) by lia.
  split; [apply i64_id; lia|lia].
Qed.
Lemma cs_pack_int x : rdu x -> let ld := (if cs_isOverflow x then 1 else 0) - (if nth 9 x 0 <? 0 then 1 else 0) in
  cs_pack x = z2le 32 (fev x - ld * p25).
Proof.
  intros H ld. unfold cs_pack. fold ld.
  assert (Hl : - 1 <= ld <= 1) by (unfold ld; destruct (cs_isOverflow x), (_ <? 0); lia). clearbody ld.
  destruct (rd_ten x H) as (x0&x1&x2&x3&x4&x5&x6&x7&x8&x9&->&B0&B1&B2&B3&B4&B5&B6&B7&B8&B9). clear H. cbn [nth]. cbv zeta.
  rewrite !Z.shiftl_mul_pow2 by lia.
  assert (Q1 : i64 (ld * 19 + x0) = ld * 19 + x0) by (apply i64_id; clear - Hl B0; lia).
  assert (Q2 : i64 (x1 * 2 ^ 26) = x1 * 2 ^ 26) by (apply i64_id; clear - B1; lia).
  assert (Q3 : i64 (x2 * 2 ^ 19) = x2 * 2 ^ 19) by (apply i64_id; clear - B2; lia).
  assert (Q4 : i64 (x3 * 2 ^ 13) = x3 * 2 ^ 13) by (apply i64_id; clear - B3; lia).
  assert (Q5 : i64 (x4 * 2 ^ 6) = x4 * 2 ^ 6) by (apply i64_id; clear - B4; lia).
  assert (Q6 : i64 (x6 * 2 ^ 25) = x6 * 2 ^ 25) by (apply i64_id; clear - B6; lia).
  assert (Q7 : i64 (x7 * 2 ^ 19) = x7 * 2 ^ 19) by (apply i64_id; clear - B7; lia).
  assert (Q8 : i64 (x8 * 2 ^ 12) = x8 * 2 ^ 12) by (apply i64_id; clear - B8; lia).
  assert (Q9 : i64 (x9 + ld * - (p25m + 1)) = x9 + ld * - (p25m + 1)) by (apply i64_id; unfold p25m; clear - B9 Hl; lia).
  assert (Q10 : i64 ((x9 + ld * - (p25m + 1)) * 2 ^ 6) = (x9 + ld * - (p25m + 1)) * 2 ^ 6) by (apply i64_id; unfold p25m; clear - B9 Hl; lia).
  rewrite Q1, Q2, Q3, Q4, Q5, Q6, Q7, Q8, Q9, Q10. clear Q1 Q2 Q3 Q4 Q5 Q6 Q7 Q8 Q9 Q10.
  remember (i64 (ld * 19 + x0 + x1 * 2 ^ 26)) as t0 eqn:E0. rewrite i64_id in E0 by (clear - B0 B1 Hl; lia).
  assert (R0 : - 2 ^ 60 <= t0 <= 2 ^ 60) by (clear - E0 B0 B1 Hl; lia).
  destruct (shr_range t0 (x2 * 2 ^ 19) R0 ltac:(clear - B2; lia)) as [W1 [R1 _]]. rewrite W1. clear W1.
  remember (Z.shiftr t0 32 + x2 * 2 ^ 19) as t1 eqn:E1.
  destruct (shr_range t1 (x3 * 2 ^ 13) R1 ltac:(clear - B3; lia)) as [W1 [R2 _]]. rewrite W1. clear W1.
  remember (Z.shiftr t1 32 + x3 * 2 ^ 13) as t2 eqn:E2.
  destruct (shr_range t2 (x4 * 2 ^ 6) R2 ltac:(clear - B4; lia)) as [W1 [R3 _]]. rewrite W1. clear W1.
  remember (Z.shiftr t2 32 + x4 * 2 ^ 6) as t3 eqn:E3.
  destruct (shr_range t3 x5 R3 ltac:(clear - B5; lia)) as [W1 _]. rewrite W1. clear W1.
  destruct (shr_range t3 (x5 + x6 * 2 ^ 25) R3 ltac:(clear - B5 B6; lia)) as [W1 [R4 _]]. rewrite Z.add_assoc in W1, R4. rewrite W1. clear W1.
  remember (Z.shiftr t3 32 + x5 + x6 * 2 ^ 25) as t4 eqn:E4. rewrite <- Z.add_assoc in E4.
  destruct (shr_range t4 (x7 * 2 ^ 19) R4 ltac:(clear - B7; lia)) as [W1 [R5 _]]. rewrite W1. clear W1.
  remember (Z.shiftr t4 32 + x7 * 2 ^ 19) as t5 eqn:E5.
  destruct (shr_range t5 (x8 * 2 ^ 12) R5 ltac:(clear - B8; lia)) as [W1 [R6 _]]. rewrite W1. clear W1.
  remember (Z.shiftr t5 32 + x8 * 2 ^ 12) as t6 eqn:E6.
  destruct (shr_range t6 ((x9 + ld * - (p25m + 1)) * 2 ^ 6) R6 ltac:(unfold p25m; clear - B9 Hl; lia)) as [W1 _]. rewrite W1. clear W1.
  remember (Z.shiftr t6 32 + (x9 + ld * - (p25m + 1)) * 2 ^ 6) as t7 eqn:E7.
  rewrite (pack_chain _ _ _ _ _ _ _ _ _ _ _ _ _ _ _ _ E0 E1 E2 E3 E4 E5 E6 E7).
  replace (4 + (4 + (4 + (4 + (4 + (4 + (4 + 4)))))))%nat with 32%nat by reflexivity. apply (f_equal (z2le 32)).
  clear. unfold fev, wts, p25, p25m. cbn [dot]. ring.
Qed.
(** pack writes the value modulo p; the only exception are limbs whose sum is one of -19 .. -1 *)
Theorem cs_pack_ok x : rd x -> cs_pack x = z2le 32 (fev x mod p25) \/ (- 19 <= fev x < 0 /\ cs_pack x = z2le 32 (fev x)).
Proof.
  intros H. rewrite (cs_pack_int x (rd_rdu x H)). destruct (overflow_ok x (rd_rdu x H)) as (B & E & _ & O & P). pose proof (rd_top x H) as B9. rewrite E. clear P E H.
  set (l := low9 x) in *. set (g := nth 9 x 0) in *. clearbody l g.
  assert (PV : p25 = 2 ^ 255 - 19) by reflexivity.
  destruct (Z.ltb_spec g 0) as [N|N]; destruct (cs_isOverflow x) eqn:EO; cbn [Z.sub Z.add Z.opp].
  - right. change (1 - 1) with 0. rewrite Z.sub_0_r. destruct (proj1 O eq_refl) as [[A [C|C]]|C]; split; try reflexivity; lia.
  - left. f_equal. apply (Z.mod_unique_pos _ _ (-1)); clear O; lia.
  - left. f_equal. assert (G : 2 ^ 255 - 19 <= l + 2 ^ 230 * g).
    { destruct (proj1 O eq_refl) as [[A [C|C]]|C]; lia. }
    apply (Z.mod_unique_pos _ _ 1); clear O; lia.
  - left. f_equal. assert (G : ~ 2 ^ 255 - 19 <= l + 2 ^ 230 * g).
    { intros G. assert (X : false = true); [|discriminate X]. apply O.
      destruct (Z.leb_spec (2 ^ 25) g); [right; assumption|left]. lia. }
    apply (Z.mod_unique_pos _ _ 0); clear O; lia.
Qed.

Lemma lor_sh v c k : 0 <= k -> 0 <= v < 2 ^ k -> 0 <= c -> Z.lor v (Z.shiftl c k) = v + 2 ^ k * c.
Proof. intros A B _. now apply lor_add. Qed.
Lemma andn b k : 0 <= k -> Z.shiftr (Z.land b (Z.lnot (Z.ones k))) k = b / 2 ^ k.
Proof.
  intros Hk. rewrite Z.shiftr_land, Z.shiftr_div_pow2 by exact Hk.
  assert (E : Z.shiftr (Z.lnot (Z.ones k)) k = -1).
  { apply Z.bits_inj'. intros i Hi. rewrite Z.shiftr_spec, Z.lnot_spec, Z.ones_spec_high, Z.bits_m1 by lia. reflexivity. }
  rewrite E. apply Z.land_m1_r.
Qed.
Lemma unpack_arith b0 b1 b2 b3 b4 b5 b6 b7 b8 b9 b10 b11 b12 b13 b14 b15 b16 b17 b18 b19 b20 b21 b22 b23 b24 b25 b26 b27 b28 b29 b30 b31 :
  let s := [b0;b1;b2;b3;b4;b5;b6;b7;b8;b9;b10;b11;b12;b13;b14;b15;b16;b17;b18;b19;b20;b21;b22;b23;b24;b25;b26;b27;b28;b29;b30;b31] in
  bytes_ok s ->
  cs_unpack s =
    [b0 + 2^8*b1 + 2^16*b2 + 2^24*(b3 mod 4);
     b3/4 + 2^6*b4 + 2^14*b5 + 2^22*(b6 mod 8);
     b6/8 + 2^5*b7 + 2^13*b8 + 2^21*(b9 mod 32);
     b9/32 + 2^3*b10 + 2^11*b11 + 2^19*(b12 mod 64);
     b12/64 + 2^2*b13 + 2^10*b14 + 2^18*b15;
     b16 + 2^8*b17 + 2^16*b18 + 2^24*(b19 mod 2);
     b19/2 + 2^7*b20 + 2^15*b21 + 2^23*(b22 mod 8);
     b22/8 + 2^5*b23 + 2^13*b24 + 2^21*(b25 mod 16);
     b25/16 + 2^4*b26 + 2^12*b27 + 2^20*(b28 mod 64);
     b28/64 + 2^2*b29 + 2^10*b30 + 2^18*b31].
Proof.
  intros s Hs. unfold s in Hs.
  repeat match goal with X : bytes_ok (_ :: _) |- _ => inversion X; clear X; subst | X : Forall byte_ok (_ :: _) |- _ => inversion X; clear X; subst | X : Forall byte_ok [] |- _ => clear X end.
  unfold byte_ok in *.
  assert (L4 : forall a b c d j k l, 0 <= j <= 8 -> 0 <= a < 2 ^ j -> 0 <= b < 256 -> 0 <= c < 256 -> 0 <= d < 256 ->
     k = j + 8 -> l = k + 8 ->
     Z.lor (Z.lor (Z.lor a (Z.shiftl b j)) (Z.shiftl c k)) (Z.shiftl d l) = a + 2 ^ j * b + 2 ^ k * c + 2 ^ l * d).
  { intros a b c d j k l Hj Ha Hb Hc Hd -> ->.
    assert (P1 : 2 ^ (j + 8) = 256 * 2 ^ j) by (rewrite Z.pow_add_r by lia; lia).
    assert (P2 : 2 ^ (j + 8 + 8) = 256 * 2 ^ (j + 8)) by (rewrite (Z.pow_add_r 2 (j + 8)) by lia; lia).
    assert (J : 0 < 2 ^ j) by (apply Z.pow_pos_nonneg; lia).
    rewrite (lor_sh a b j) by lia. rewrite (lor_sh (a + 2 ^ j * b) c) by nia. rewrite lor_sh by nia. reflexivity. }
  assert (M : forall b k, 0 <= k -> Z.land b (Z.ones k) = b mod 2 ^ k) by (intros; now apply Z.land_ones).
  assert (M255 : forall b, 0 <= b < 256 -> Z.land b 255 = b) by (intros b Hb; change 255 with (Z.ones 8); rewrite Z.land_ones, Z.mod_small by lia; reflexivity).
  unfold s, cs_unpack. cbn [nth].
  rewrite !M255 by assumption.
  change (Z.lnot 3) with (Z.lnot (Z.ones 2)). change (Z.lnot 7) with (Z.lnot (Z.ones 3)).
  change (Z.lnot 31) with (Z.lnot (Z.ones 5)). change (Z.lnot 63) with (Z.lnot (Z.ones 6)).
  change (Z.lnot 15) with (Z.lnot (Z.ones 4)). change (Z.lnot 1) with (Z.lnot (Z.ones 1)).
  rewrite !andn by lia.
  change (Z.land b3 3) with (Z.land b3 (Z.ones 2)). change (Z.land b6 7) with (Z.land b6 (Z.ones 3)).
  change (Z.land b9 31) with (Z.land b9 (Z.ones 5)). change (Z.land b12 63) with (Z.land b12 (Z.ones 6)).
  change (Z.land b19 1) with (Z.land b19 (Z.ones 1)). change (Z.land b22 7) with (Z.land b22 (Z.ones 3)).
  change (Z.land b25 15) with (Z.land b25 (Z.ones 4)). change (Z.land b28 63) with (Z.land b28 (Z.ones 6)).
  rewrite !M by lia.
  rewrite (L4 b0 b1 b2 _ 8 16 24) by lia.
  rewrite (L4 (b3 / 2 ^ 2) b4 b5 _ 6 14 22) by lia.
  rewrite (L4 (b6 / 2 ^ 3) b7 b8 _ 5 13 21) by lia.
  rewrite (L4 (b9 / 2 ^ 5) b10 b11 _ 3 11 19) by lia.
  rewrite (L4 (b12 / 2 ^ 6) b13 b14 _ 2 10 18) by lia.
  rewrite (L4 b16 b17 b18 _ 8 16 24) by lia.
  rewrite (L4 (b19 / 2 ^ 1) b20 b21 _ 7 15 23) by lia.
  rewrite (L4 (b22 / 2 ^ 3) b23 b24 _ 5 13 21) by lia.
  rewrite (L4 (b25 / 2 ^ 4) b26 b27 _ 4 12 20) by lia.
  rewrite (L4 (b28 / 2 ^ 6) b29 b30 _ 2 10 18) by lia.
  reflexivity.
Qed.
Lemma cs_unpack_ok s : length s = 32%nat -> bytes_ok s ->
  rdu (cs_unpack s) /\ fev (cs_unpack s) = le2z s /\ (le2z s < 2 ^ 255 -> rd (cs_unpack s)) /\ 0 <= nth 9 (cs_unpack s) 0.
Proof.
  intros HL Hs. destruct (len32 s HL) as (b0&b1&b2&b3&b4&b5&b6&b7&b8&b9&b10&b11&b12&b13&b14&b15&b16&b17&b18&b19&b20&b21&b22&b23&b24&b25&b26&b27&b28&b29&b30&b31&->).
  rewrite (unpack_arith b0 b1 b2 b3 b4 b5 b6 b7 b8 b9 b10 b11 b12 b13 b14 b15 b16 b17 b18 b19 b20 b21 b22 b23 b24 b25 b26 b27 b28 b29 b30 b31 Hs).
  repeat match goal with X : bytes_ok (_ :: _) |- _ => inversion X; clear X; subst | X : Forall byte_ok (_ :: _) |- _ => inversion X; clear X; subst | X : Forall byte_ok [] |- _ => clear X end.
  unfold byte_ok in *. clear HL.
  assert (E : forall b k q, b = k * (b / k) + b mod k -> q * b = q * k * (b / k) + q * (b mod k)) by (intros b k q Q; rewrite Q at 1; ring).
  split; [|split; [|split]].
  - unfold rdu, csu, inL. repeat constructor; unfold inI; cbn [fst snd]; lia.
  - unfold fev, wts. cbn [dot le2z].
    pose proof (Z.div_mod b3 4 ltac:(lia)). pose proof (Z.div_mod b6 8 ltac:(lia)). pose proof (Z.div_mod b9 32 ltac:(lia)).
    pose proof (Z.div_mod b12 64 ltac:(lia)). pose proof (Z.div_mod b19 2 ltac:(lia)). pose proof (Z.div_mod b22 8 ltac:(lia)).
    pose proof (Z.div_mod b25 16 ltac:(lia)). pose proof (Z.div_mod b28 64 ltac:(lia)). lia.
  - intros Hlt. assert (T : b31 < 128).
    { cbn [le2z] in Hlt. lia. }
    unfold rd, csm, inL. repeat constructor; unfold inI; cbn [fst snd]; lia.
  - cbn [nth]. lia.
Qed.
(** the two canonical checks on public keys agree with comparing the value to p *)
Theorem cs_canonical_pub_ok s : bytes_ok s -> cs_canonical_pub s = true <-> length s = 32%nat /\ le2z s < p25.
Proof.
  intros Hs. unfold cs_canonical_pub. rewrite andb_true_iff, Nat.eqb_eq.
  destruct (Nat.eq_dec (length s) 32) as [HL|HL]; [|tauto].
  destruct (cs_unpack_ok s HL Hs) as (U & V & _ & N). rewrite (cs_pack_int _ U).
  destruct (overflow_ok _ U) as (B & E & B9 & O & _).
  destruct (Z.ltb_spec (nth 9 (cs_unpack s) 0) 0) as [X|_]; [lia|].
  pose proof (le2z_bound s Hs) as LB. rewrite HL in LB. change (256 ^ Z.of_nat 32) with (2 ^ 256) in LB.
  assert (OV : cs_isOverflow (cs_unpack s) = true <-> p25 <= le2z s).
  { rewrite O, <- V, E. assert (PV : p25 = 2 ^ 255 - 19) by reflexivity. rewrite PV. clear O E V.
    set (l := low9 _) in *. set (g := nth 9 _ 0) in *. clearbody l g. lia. }
  assert (P1 : 0 < p25 < 2 ^ 255) by (split; reflexivity).
  rewrite V. destruct (cs_isOverflow (cs_unpack s)).
  - destruct (list_eq_dec Z.eq_dec _ _) as [Q|Q].
    + exfalso. assert (Q2 : le2z (z2le 32 (le2z s - (1 - 0) * p25)) = le2z s) by now rewrite Q.
      rewrite le2z_z2le in Q2. change (256 ^ Z.of_nat 32) with (2 ^ 256) in Q2.
      pose proof (proj1 OV eq_refl). rewrite Z.mod_small in Q2 by (clear - LB P1 H; lia). clear - Q2 P1. lia.
    + split; [intros [_ X]; discriminate|]. intros [_ X]. pose proof (proj1 OV eq_refl). lia.
  - replace (le2z s - (0 - 0) * p25) with (le2z s) by lia.
    assert (Q : z2le 32 (le2z s) = s) by (rewrite <- HL at 1; now apply z2le_le2z).
    rewrite Q. destruct (list_eq_dec Z.eq_dec s s) as [_|Q']; [|congruence].
    split; [intros _|tauto]. split; [exact HL|]. destruct (Z.ltb_spec (le2z s) p25); [assumption|].
    exfalso. pose proof (proj2 OV H). discriminate.
Qed.
