(** Encoding and decoding of points. *)
Require Import ZArith List Lia Bool Znumtheory Field.
Require Import Verif.Base Verif.Words Verif.Fp Verif.Group Verif.Edw Verif.SpecEd Verif.EdCurve Verif.ModelSlp Verif.ModelEdCode Verif.ModelEd Verif.ProofSlp Verif.ProofEdF Verif.ProofEdG.
Import ListNotations.
Open Scope Z_scope.
Lemma Kf25c : field_theory (fz 0) (fz 1) fp_add fp_mul fp_sub fp_opp fp_div fp_inv (@eq F25).
Proof. exact Kf25. Qed.
Add Field KF25c : Kf25c.

Lemma z2le_congr n a b : a mod 256 ^ Z.of_nat n = b mod 256 ^ Z.of_nat n -> z2le n a = z2le n b.
Proof.
  revert a b. induction n as [|n IH]; intros a b E; [reflexivity|]. cbn [z2le].
  rewrite Nat2Z.inj_succ, Z.pow_succ_r in E by lia.
  assert (M : forall z, (z mod (256 * 256 ^ Z.of_nat n)) mod 256 = z mod 256).
  { intros z. symmetry. apply Zmod_div_mod; [lia| |exists (256 ^ Z.of_nat n); ring].
    apply Z.mul_pos_pos; [lia|apply Z.pow_pos_nonneg; lia]. }
  f_equal.
  - rewrite <- (M a), <- (M b), E. reflexivity.
  - apply IH. pose proof (Z.pow_pos_nonneg 256 (Z.of_nat n) ltac:(lia) ltac:(lia)) as Hp.
    rewrite !Z.rem_mul_r in E by lia. rewrite <- (M a) in E. rewrite <- (M b) in E.
    assert (A : a mod 256 = b mod 256). { rewrite <- (M a), <- (M b). rewrite !Z.rem_mul_r by lia. rewrite <- (M a), <- (M b), E. reflexivity. }
    rewrite !M in E. rewrite A in E. lia.
Qed.

Lemma set_sign_ok v b : 0 <= v < 2 ^ 255 -> (b = 0 \/ b = 1) -> set_sign (z2le 32 v) b = z2le 32 (v + 2 ^ 255 * b).
Proof.
  intros Hv Hb. change 32%nat with (31 + 1)%nat. rewrite !z2le_split by lia. unfold set_sign.
  set (lo := z2le 31 v). assert (L : length lo = 31%nat) by apply z2le_length.
  assert (E : z2le 31 (v + 2 ^ 255 * b) = lo).
  { apply z2le_congr. replace (v + 2 ^ 255 * b) with (v + (128 * b) * 256 ^ Z.of_nat 31) by (change (2 ^ 255) with (128 * 256 ^ Z.of_nat 31); ring).
    apply Z.mod_add. discriminate. }
  rewrite E. clear E.
  change (2 ^ 255) with (128 * 256 ^ Z.of_nat 31) in *.
  set (W := 256 ^ Z.of_nat 31) in *. assert (HW : 0 < W) by reflexivity.
  assert (Q : 0 <= v / W < 128). { split; [apply Z.div_pos; lia|]. apply Z.div_lt_upper_bound; lia. }
  replace (v + 128 * W * b) with (v + (128 * b) * W) by ring. rewrite Z.div_add by lia.
  set (q := v / W) in *. clearbody q W.
  cbn [z2le]. rewrite app_nth2 by lia. rewrite L. cbn [Nat.sub nth].
  replace (upd 31 _ _) with (lo ++ [Z.lxor (q mod 256) (Z.shiftl b 7 mod 256)]).
  - f_equal. f_equal. rewrite !Z.mod_small by lia.
    assert (A : forallb (fun n => let x := Z.of_nat n in (Z.lxor x (Z.shiftl 0 7 mod 256) =? x + 0) && (Z.lxor x (Z.shiftl 1 7 mod 256) =? x + 128)) (seq 0 128) = true) by (vm_compute; reflexivity).
    rewrite forallb_forall in A. specialize (A (Z.to_nat q) ltac:(apply in_seq; lia)). cbv zeta in A. rewrite Z2Nat.id in A by lia.
    apply andb_true_iff in A. destruct A as [A1 A2]. apply Z.eqb_eq in A1, A2.
    destruct Hb as [-> | ->]; [rewrite A1|rewrite A2]; lia.
  - clear -L. revert L. generalize (Z.lxor (q mod 256) (Z.shiftl b 7 mod 256)). intros w L.
    do 31 (destruct lo as [|? lo]; [discriminate L|]). destruct lo; [reflexivity|discriminate L].
Qed.

Lemma fval25 (x : F25) : 0 <= fval x < p25.
Proof. apply fval_bound. reflexivity. Qed.
Lemma fval255 (x : F25) : 0 <= fval x < 2 ^ 255.
Proof. pose proof (fval25 x). assert (p25 < 2 ^ 255) by reflexivity. lia. Qed.

Lemma to_bytes_ok c X Y Z P z : c <= 3 -> z <> fz 0 -> rep c X (fp_mul (fst P) z) -> rep 1 Y (fp_mul (snd P) z) -> rep 1 Z z ->
  to_bytes X Y Z = ed_enc P.
Proof.
  intros Hc N HX HY HZ. unfold to_bytes. cbv zeta.
  pose proof (FeInvert_ok Z z (rep_weaken 1 3 _ _ ltac:(lia) HZ) N) as HI.
  pose proof (rep_mul _ _ _ _ _ _ HX HI ltac:(lia) ltac:(lia)) as Hx. pose proof (rep_mul _ _ _ _ _ _ HY HI ltac:(lia) ltac:(lia)) as Hy.
  replace (fp_mul (fp_mul (fst P) z) (fp_inv z)) with (fst P) in Hx by (field; exact N).
  replace (fp_mul (fp_mul (snd P) z) (fp_inv z)) with (snd P) in Hy by (field; exact N).
  rewrite (proj1 (rep_tobytes _ _ _ Hy ltac:(lia))). rewrite (proj1 (rep_neg_bit _ _ _ Hx ltac:(lia))).
  pose proof (fval255 (snd P)) as B1. pose proof (Z.mod_pos_bound (fval (fst P)) 2 ltac:(lia)) as B2.
  apply set_sign_ok; [exact B1|lia].
Qed.
Lemma proj_tobytes_ok c q P : c <= 3 -> proj_rep c q P -> proj_tobytes q = ed_enc P.
Proof. intros Hc (z & N & A & B & C). exact (to_bytes_ok c _ _ _ P z Hc N A B C). Qed.
Lemma ext_tobytes_ok c q P : c <= 3 -> ext_rep c q P -> ext_tobytes q = ed_enc P.
Proof. intros Hc (z & N & A & B & C & _). exact (to_bytes_ok c _ _ _ P z Hc N A B C). Qed.

Lemma ed_enc_length P : length (ed_enc P) = 32%nat. Proof. apply z2le_length. Qed.
Lemma ed_enc_ok P : bytes_ok (ed_enc P). Proof. apply z2le_ok. Qed.
Lemma ed_enc_val P : le2z (ed_enc P) = fval (snd P) + 2 ^ 255 * (fval (fst P) mod 2).
Proof.
  unfold ed_enc. rewrite le2z_z2le. apply Z.mod_small. pose proof (fval255 (snd P)) as B1.
  pose proof (Z.mod_pos_bound (fval (fst P)) 2 ltac:(lia)) as B2. change (256 ^ Z.of_nat 32) with (2 * 2 ^ 255). lia.
Qed.

(** ** The square root *)
Lemma on_iff x y : ed_on (x, y) <->
  (fp_mul (fp_add (fp_mul (fp_mul y y) ed_d) (fz 1)) (fp_mul x x) = fp_sub (fp_mul y y) (fz 1)).
Proof.
  unfold ed_on, e_on. split; intros H.
  - transitivity (fp_add (fp_sub (fp_add (fz 1) (fp_mul (fp_mul ed_d (fp_mul x x)) (fp_mul y y))) (fz 1)) (fp_mul x x)); [ring|].
    rewrite <- H. ring.
  - transitivity (fp_add (fp_sub (fp_mul y y) (fz 1)) (fp_sub (fz 1) (fp_mul x x))); [ring|]. rewrite <- H. ring.
Qed.

Lemma sq1 (w : F25) : fp_mul w w = fz 1 -> w = fz 1 \/ w = fp_opp (fz 1).
Proof.
  intros H. destruct (fp25_integral (fp_sub w (fz 1)) (fp_add w (fz 1))) as [E|E].
  - transitivity (fp_sub (fp_mul w w) (fz 1)); [ring|]. rewrite H. ring.
  - left. transitivity (fp_add (fp_sub w (fz 1)) (fz 1)); [ring|]. rewrite E. ring.
  - right. transitivity (fp_sub (fp_add w (fz 1)) (fz 1)); [ring|]. rewrite E. ring.
Qed.

Lemma root_cases (u v x0 : F25) : fp_mul v (fp_mul x0 x0) = u ->
  let v3 := fp_mul (fp_mul v v) v in
  let t := fp_mul (fp_mul (fp_mul v3 v3) v) u in
  let x := fp_mul (fp_mul (pw t ((p25 - 5) / 8)) v3) u in
  let w := fp_mul (fp_mul x x) v in
  w = u \/ w = fp_opp u.
Proof.
  intros H v3 t x w. destruct (fp_dec t (fz 0)) as [E|N].
  - left. assert (U : u = fz 0).
    { unfold t, v3 in E. destruct (fp25_integral _ _ E) as [E1|E1]; [|exact E1].
      assert (V : v = fz 0). { destruct (fp_dec v (fz 0)) as [Q|Q]; [exact Q|]. exfalso. revert E1. repeat apply fp25_mul_ne; exact Q. }
      rewrite <- H, V. ring. }
    unfold w, x. rewrite U. ring.
  - set (q := pw t ((p25 - 5) / 8)) in *.
    assert (W : w = fp_mul u (fp_mul t (fp_mul q q))) by (unfold w, x, t, v3; ring).
    assert (Q1 : fp_mul t (fp_mul q q) = pw t ((p25 - 1) / 4)).
    { unfold q. rewrite <- (pw_1 t) at 1. rewrite !pw_add by (vm_compute; discriminate). f_equal. }
    rewrite Q1 in W.
    assert (Q2 : fp_mul (pw t ((p25 - 1) / 4)) (pw t ((p25 - 1) / 4)) = fz 1).
    { rewrite pw_add by (vm_compute; discriminate).
      set (s := fp_mul x0 (fp_mul (fp_mul v v) (fp_mul v v))).
      assert (T : t = fp_mul s s) by (unfold t, s, v3; rewrite <- H; ring).
      assert (NS : s <> fz 0). { intros Z0. apply N. rewrite T, Z0. ring. }
      rewrite T, pw_mul by (vm_compute; discriminate). rewrite pw_add by (vm_compute; discriminate).
      replace ((p25 - 1) / 4 + (p25 - 1) / 4 + ((p25 - 1) / 4 + (p25 - 1) / 4)) with (p25 - 1) by (vm_compute; reflexivity).
      apply pw_fermat. exact NS. }
    destruct (sq1 _ Q2) as [E|E]; rewrite E in W; [left|right]; rewrite W; ring.
Qed.

Lemma fval_opp (x : F25) : x <> fz 0 -> fval (fp_opp x) = p25 - fval x.
Proof.
  intros N. unfold fp_opp. rewrite fval_of. pose proof (fval25 x) as B.
  assert (fval x <> 0). { intros E. apply N. rewrite <- (fp_of_val _ x), E. reflexivity. }
  replace (- fval x) with (p25 - fval x + (-1) * p25) by ring. rewrite Z.mod_add by discriminate. apply Z.mod_small. lia.
Qed.
Lemma parity_opp (x : F25) : x <> fz 0 -> fval (fp_opp x) mod 2 = 1 - fval x mod 2.
Proof.
  intros N. rewrite (fval_opp x N). rewrite Zminus_mod. change (p25 mod 2) with 1.
  pose proof (Z.mod_pos_bound (fval x) 2 ltac:(lia)) as B. assert (fval x mod 2 = 0 \/ fval x mod 2 = 1) as [-> | ->] by lia; reflexivity.
Qed.

Lemma top_bit s : length s = 32%nat -> bytes_ok s -> Z.shiftr (nth 31 s 0) 7 = le2z s / 2 ^ 255 /\ 0 <= le2z s / 2 ^ 255 <= 1.
Proof.
  intros HL HB. pose proof (le2z_bound s HB) as B. rewrite HL in B. change (256 ^ Z.of_nat 32) with (2 * 2 ^ 255) in B.
  split.
  - rewrite Z.shiftr_div_pow2 by lia.
    rewrite <- (firstn_skipn 31 s) at 2. rewrite le2z_app, firstn_length, HL. change (Nat.min 31 32) with 31%nat.
    assert (E : skipn 31 s = [nth 31 s 0]).
    { clear HB B. do 31 (destruct s as [|? s]; [discriminate HL|]). destruct s as [|? [|? ?]]; try discriminate HL. reflexivity. }
    rewrite E. cbn [le2z]. rewrite Z.mul_0_r, Z.add_0_r.
    assert (Bf : 0 <= le2z (firstn 31 s) < 256 ^ Z.of_nat 31).
    { pose proof (le2z_bound (firstn 31 s)) as X. rewrite firstn_length, HL in X. apply X. apply bytes_ok_firstn. exact HB. }
    change (2 ^ 255) with (256 ^ Z.of_nat 31 * 2 ^ 7). rewrite <- Z.div_div by (try lia; reflexivity).
    f_equal. rewrite Z.mul_comm, Z.div_add by discriminate. rewrite Z.div_small by exact Bf. reflexivity.
  - split; [apply Z.div_pos; lia|]. assert (le2z s / 2 ^ 255 < 2) by (apply Z.div_lt_upper_bound; lia). lia.
Qed.

(** FromBytes: it succeeds exactly when some x completes y to a point of the curve *)
Theorem ext_frombytes_ok s : length s = 32%nat -> bytes_ok s ->
  let y := fz (le2z s mod 2 ^ 255) in
  if fst (ext_frombytes s)
  then exists x, ed_on (x, y) /\ ext_rep 2 (snd (ext_frombytes s)) (x, y) /\
                 (fval x mod 2 = le2z s / 2 ^ 255 \/ x = fz 0)
  else forall x, ~ ed_on (x, y).
Proof.
  intros HL HB y. pose proof (rep_frombytes s HL HB) as HY. fold y in HY. clearbody y.
  destruct (top_bit s HL HB) as [TB BB]. unfold ext_frombytes. cbv zeta. rewrite TB.
  set (Y := FeFromBytes s) in *. clearbody Y. set (sg := le2z s / 2 ^ 255) in *. clearbody sg. clear HL HB TB s.
  pose proof (rep_sq _ _ _ HY ltac:(lia)) as H1. pose proof (rep_mul _ _ _ _ _ _ H1 fe_d_rep ltac:(lia) ltac:(lia)) as H2.
  pose proof (rep_sub _ _ _ _ _ _ H1 rep_1 ltac:(lia)) as HU. pose proof (rep_add _ _ _ _ _ _ H2 rep_1 ltac:(lia)) as HV.
  set (U := FeSub (FeSquare Y) FeOne) in *. set (V := FeAdd (FeMul (FeSquare Y) fe_d) FeOne) in *. clearbody U V. clear H1 H2.
  assert (Hon : forall x, ed_on (x, y) <-> fp_mul (fp_add (fp_mul (fp_mul y y) ed_d) (fz 1)) (fp_mul x x) = fp_sub (fp_mul y y) (fz 1)) by (intros; apply on_iff).
  set (u := fp_sub (fp_mul y y) (fz 1)) in *. set (v := fp_add (fp_mul (fp_mul y y) ed_d) (fz 1)) in *. clearbody u v.
  change (1 + 1) with 2 in *.
  pose proof (rep_sq _ _ _ HV ltac:(lia)) as A1. pose proof (rep_mul _ _ _ _ _ _ A1 HV ltac:(lia) ltac:(lia)) as A3.
  pose proof (rep_sq _ _ _ A3 ltac:(lia)) as A4. pose proof (rep_mul _ _ _ _ _ _ A4 HV ltac:(lia) ltac:(lia)) as A5.
  pose proof (rep_mul _ _ _ _ _ _ A5 HU ltac:(lia) ltac:(lia)) as A6.
  pose proof (fePow22523_ok _ _ (rep_weaken 1 3 _ _ ltac:(lia) A6)) as A7. unfold rp in A7.
  pose proof (rep_mul _ _ _ _ _ _ A7 A3 ltac:(lia) ltac:(lia)) as A8. pose proof (rep_mul _ _ _ _ _ _ A8 HU ltac:(lia) ltac:(lia)) as A9.
  set (X := FeMul (FeMul (fePow22523 _) _) U) in *. clearbody X. clear A1 A3 A4 A5 A6 A7 A8.
  pose proof (root_cases u v) as RC. cbv zeta in RC.
  set (x := fp_mul (fp_mul (pw _ _) _) u) in *. clearbody x.
  pose proof (rep_sq _ _ _ A9 ltac:(lia)) as B1. pose proof (rep_mul _ _ _ _ _ _ B1 HV ltac:(lia) ltac:(lia)) as B2.
  set (W := FeMul (FeSquare X) V) in *. clearbody W. clear B1.
  rewrite (rep_nonzero _ _ _ (rep_sub _ _ _ _ _ _ B2 HU ltac:(lia)) ltac:(lia)).
  rewrite (rep_nonzero _ _ _ (rep_add _ _ _ _ _ _ B2 HU ltac:(lia)) ltac:(lia)).
  assert (FIN : forall c X' x', c <= 2 -> rep c X' x' -> fp_mul v (fp_mul x' x') = u ->
     let r := (let '(neg, X0) := FeIsNegative X' in
               let X0 := if neg =? sg then X0 else FeNeg X0 in (true, mkext X0 Y FeOne (FeMul X0 Y))) in
     if fst r then exists x, ed_on (x, y) /\ ext_rep 2 (snd r) (x, y) /\ (fval x mod 2 = sg \/ x = fz 0)
     else forall x, ~ ed_on (x, y)).
  { intros c X' x' Hc HX E. cbv zeta. destruct (rep_neg_bit _ _ _ HX ltac:(lia)) as [C1 C2].
    destruct (FeIsNegative X') as [neg X0]. cbn [fst snd] in C1, C2. subst neg.
    assert (G : forall X1 x1, rep 2 X1 x1 -> fp_mul v (fp_mul x1 x1) = u -> (fval x1 mod 2 = sg \/ x1 = fz 0) ->
       exists x, ed_on (x, y) /\ ext_rep 2 (mkext X1 Y FeOne (FeMul X1 Y)) (x, y) /\ (fval x mod 2 = sg \/ x = fz 0)).
    { intros X1 x1 R1 R2 R3. exists x1. split; [now apply Hon|]. split; [|exact R3].
      exists (fz 1). split; [apply fp_of_ne0; split; reflexivity|]. cbn [eX eY eZ eT fst snd].
      split; [eapply rep_eq; [exact R1|ring]|]. split; [eapply rep_eq; [exact HY|ring]|]. split; [exact rep_1|].
      eapply rep_eq; [eapply rep_mul; [exact R1|exact HY|lia|lia]|ring]. }
    cbn [fst snd]. destruct (Z.eqb_spec (fval x' mod 2) sg) as [D|D].
    - apply (G X0 x'); auto.
    - apply (G (FeNeg X0) (fp_opp x')).
      + apply rep_neg; [exact C2|lia].
      + rewrite <- E. ring.
      + destruct (fp_dec x' (fz 0)) as [Z0|Z0]; [right; rewrite Z0; ring|left].
        rewrite (parity_opp _ Z0). pose proof (Z.mod_pos_bound (fval x') 2 ltac:(lia)). lia. }
  destruct (fp_dec (fp_sub (fp_mul (fp_mul x x) v) u) (fz 0)) as [D1|D1].
  - cbn [Z.eqb]. apply (FIN 1 X x); [lia|exact A9|].
    transitivity (fp_add (fp_sub (fp_mul (fp_mul x x) v) u) u); [ring|]. rewrite D1. ring.
  - change (1 =? 1) with true. cbv iota.
    destruct (fp_dec (fp_add (fp_mul (fp_mul x x) v) u) (fz 0)) as [D2|D2].
    + cbn [Z.eqb].
      pose proof (rep_mul _ _ _ _ _ _ A9 fe_sqrtm1_rep ltac:(lia) ltac:(lia)) as C1.
      destruct (rep_tobytes _ _ _ C1 ltac:(lia)) as [_ C2].
      apply (FIN 2 _ _ ltac:(lia) C2).
      transitivity (fp_mul (fp_mul (fp_mul x x) v) (fp_mul (fz ed_iz) (fz ed_iz))); [ring|]. rewrite ed_i_sq.
      transitivity (fp_sub u (fp_add (fp_mul (fp_mul x x) v) u)); [ring|]. rewrite D2. ring.
    + change (1 =? 1) with true. cbv iota. cbn [fst]. intros x0 H0. apply Hon in H0.
      destruct (RC x0 H0) as [E|E].
      * apply D1. rewrite E. ring.
      * apply D2. rewrite E. ring.
Qed.

(** equal squares *)
Lemma same_square (x y : F25) : fp_mul x x = fp_mul y y -> x = y \/ x = fp_opp y.
Proof.
  intros H. destruct (fp25_integral (fp_sub x y) (fp_add x y)) as [E|E].
  - transitivity (fp_sub (fp_mul x x) (fp_mul y y)); [ring|]. rewrite H. ring.
  - left. transitivity (fp_add (fp_sub x y) y); [ring|]. rewrite E. ring.
  - right. transitivity (fp_sub (fp_add x y) y); [ring|]. rewrite E. ring.
Qed.
Lemma on_v_ne y x : ed_on (x, y) -> fp_add (fp_mul (fp_mul y y) ed_d) (fz 1) <> fz 0.
Proof.
  intros _ E. (* -1/d would be y^2; -1 = i^2, so d would be a square *)
  assert (Ny : y <> fz 0).
  { intros ->. revert E. replace (fp_add (fp_mul (fp_mul (fz 0) (fz 0)) ed_d) (fz 1)) with (fz 1) by ring.
    apply fp_of_ne0. split; reflexivity. }
  apply (ed_d_nonsquare (fp_div (fz ed_iz) y)).
  transitivity (fp_div (fp_mul (fz ed_iz) (fz ed_iz)) (fp_mul y y)); [field; exact Ny|]. rewrite ed_i_sq.
  transitivity (fp_sub ed_d (fp_div (fp_add (fp_mul (fp_mul y y) ed_d) (fz 1)) (fp_mul y y))); [field; exact Ny|].
  rewrite E. field. exact Ny.
Qed.
Lemma on_same_y x x' y : ed_on (x, y) -> ed_on (x', y) -> x = x' \/ x = fp_opp x'.
Proof.
  intros H H'. apply same_square. pose proof (on_v_ne _ _ H) as N. apply on_iff in H, H'.
  set (v := fp_add _ _) in *. transitivity (fp_div (fp_mul v (fp_mul x x)) v); [field; exact N|].
  rewrite H, <- H'. field. exact N.
Qed.

(** decoding an encoded point gives it back *)
Theorem ext_frombytes_enc P : ed_on P ->
  fst (ext_frombytes (ed_enc P)) = true /\ ext_rep 2 (snd (ext_frombytes (ed_enc P))) P.
Proof.
  intros Ho. destruct P as [x y]. pose proof (ext_frombytes_ok (ed_enc (x, y)) (ed_enc_length _) (ed_enc_ok _)) as H. cbv zeta in H.
  rewrite ed_enc_val in H. cbn [fst snd] in H.
  pose proof (fval255 y) as B1. pose proof (Z.mod_pos_bound (fval x) 2 ltac:(lia)) as B2.
  rewrite Z.mul_comm, Z.mod_add, Z.div_add, Z.div_small, Z.mod_small in H by lia. rewrite Z.add_0_l in H. rewrite fp_of_val in H.
  destruct (ext_frombytes (ed_enc (x, y))) as [b e]. cbn [fst snd] in *. destruct b; [|exfalso; exact (H x Ho)].
  split; [reflexivity|]. destruct H as (x' & H1 & H2 & H3).
  replace x with x'; [exact H2|].
  destruct (on_same_y _ _ _ H1 Ho) as [E|E]; [exact E|].
  destruct (fp_dec x (fz 0)) as [Z0|Z0]; [rewrite E, Z0; ring|].
  destruct H3 as [H3|H3].
  - exfalso. rewrite E, (parity_opp _ Z0) in H3. lia.
  - exfalso. apply Z0. transitivity (fp_opp x'); [rewrite E; ring|]. rewrite H3. ring.
Qed.
