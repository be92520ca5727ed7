(** The byte arithmetic of curve25519_sha256.go: mulaSmall, mula32, divmod, egcd32. *)
Require Import ZArith List Lia Bool Znumtheory.
Require Import Verif.Base Verif.Words Verif.ModelSlp Verif.ModelCsha Verif.ProofSlp Verif.ProofEdN.
Import ListNotations.
Open Scope Z_scope.

Definition bb (n : nat) : Z := 256 ^ Z.of_nat n.
Lemma bb_pos n : 0 < bb n. Proof. unfold bb. apply Z.pow_pos_nonneg; lia. Qed.
Lemma bb_S n : bb (S n) = 256 * bb n. Proof. unfold bb. rewrite Nat2Z.inj_succ, Z.pow_succ_r by lia. reflexivity. Qed.
Lemma bb_add m n : bb (m + n) = bb m * bb n. Proof. unfold bb. rewrite Nat2Z.inj_add, Z.pow_add_r by lia. reflexivity. Qed.
Lemma bb_0 : bb 0 = 1. Proof. reflexivity. Qed.
Lemma val_app a b : le2z (a ++ b) = le2z a + bb (length a) * le2z b. Proof. apply le2z_app. Qed.
Lemma val_lt l : bytes_ok l -> 0 <= le2z l < bb (length l). Proof. apply le2z_bound. Qed.
Lemma val_upd l : forall i v, (i < length l)%nat -> le2z (upd i v l) = le2z l + bb i * (v - nth i l 0).
Proof.
  induction l as [|h t IH]; intros [|i] v H; cbn [length] in H; try lia; cbn [upd le2z nth].
  - rewrite bb_0. lia.
  - rewrite IH by lia. rewrite bb_S. ring.
Qed.
Lemma ok_upd l : forall i v, bytes_ok l -> 0 <= v < 256 -> bytes_ok (upd i v l).
Proof.
  induction l as [|h t IH]; intros [|i] v H Hv; cbn [upd]; try assumption; inversion H; subst; constructor; try assumption.
  now apply IH.
Qed.
Lemma nth_ok l i : bytes_ok l -> 0 <= nth i l 0 < 256.
Proof.
  intros H. revert i. induction H as [|b l Hb Hl IH]; intros [|i]; cbn [nth]; first [exact Hb|apply IH|lia].
Qed.
Lemma ok_firstn n l : bytes_ok l -> bytes_ok (firstn n l).
Proof. intros H. revert n. induction H as [|b l Hb Hl IH]; intros [|n]; cbn [firstn]; constructor; [exact Hb|apply IH]. Qed.
Lemma ok_skipn n l : bytes_ok l -> bytes_ok (skipn n l).
Proof. intros H. revert n. induction H as [|b l Hb Hl IH]; intros [|n]; cbn [skipn]; try constructor; try assumption. apply IH. Qed.
Lemma ok_app a b : bytes_ok a -> bytes_ok b -> bytes_ok (a ++ b).
Proof. intros Ha Hb. apply Forall_app. now split. Qed.
Lemma ok_repeat n : bytes_ok (repeat 0 n).
Proof. induction n; constructor; [unfold byte_ok; lia|assumption]. Qed.
Lemma val_repeat n : le2z (repeat 0 n) = 0.
Proof. induction n as [|n IH]; cbn [repeat le2z]; [reflexivity|]. now rewrite IH. Qed.
Lemma val_firstn n l : bytes_ok l -> (n <= length l)%nat -> le2z (firstn n l) = le2z l mod bb n.
Proof.
  intros H HL. rewrite <- (firstn_skipn n l) at 2. rewrite val_app, firstn_length, Nat.min_l by exact HL.
  rewrite Z.mul_comm, Z.mod_add by (pose proof (bb_pos n); lia). rewrite Z.mod_small; [reflexivity|].
  pose proof (val_lt _ (ok_firstn n l H)) as B. rewrite firstn_length, Nat.min_l in B by exact HL. exact B.
Qed.

(** ** mulaSmall *)
Lemma seg_ok q : forall x z v r c, length q = length x -> mula_seg q x z v = (r, c) ->
  length r = length q /\ bytes_ok r /\ le2z r + bb (length q) * c = v + le2z q + z * le2z x.
Proof.
  induction q as [|qi q IH]; intros [|xi x] z v r c HL E; cbn [length] in HL; try discriminate; cbn [mula_seg] in E.
  - injection E as <- <-. cbn [length le2z]. rewrite bb_0. repeat split; [constructor|lia].
  - destruct (mula_seg q x z (Z.shiftr (v + qi + z * xi) 8)) as [r' c'] eqn:E'. injection E as <- <-.
    destruct (IH x z _ r' c' ltac:(lia) E') as (L & O & V). cbn [length le2z]. split; [lia|]. split.
    + constructor; [|exact O]. unfold byte_ok. apply Z.mod_pos_bound. lia.
    + rewrite bb_S. rewrite Z.shiftr_div_pow2 in V by lia. change (2 ^ 8) with 256 in V.
      pose proof (Z.div_mod (v + qi + z * xi) 256 ltac:(lia)) as D.
      transitivity ((v + qi + z * xi) mod 256 + 256 * (le2z r' + bb (length q) * c')); [ring|]. rewrite V. lia.
Qed.
Lemma mulaSmall_shape A Bs R x y z : length x = length Bs ->
  mulaSmall (A ++ Bs ++ R) (A ++ Bs ++ R) (length A) (x ++ y) (length Bs) z =
  (A ++ fst (mula_seg Bs x z 0) ++ R, snd (mula_seg Bs x z 0)).
Proof.
  intros HL. unfold mulaSmall.
  assert (S1 : skipn (length A) (A ++ Bs ++ R) = Bs ++ R) by (rewrite skipn_app, skipn_all, Nat.sub_diag; reflexivity).
  assert (F0 : forall (a b : bytes), firstn (length a) (a ++ b) = a) by (intros a b; rewrite firstn_app, firstn_all, Nat.sub_diag; cbn [firstn]; apply app_nil_r).
  assert (S2 : skipn (length A + length Bs) (A ++ Bs ++ R) = R).
  { rewrite app_assoc, <- app_length, skipn_app, skipn_all, Nat.sub_diag. reflexivity. }
  rewrite S1, F0. rewrite <- HL, F0. rewrite HL. destruct (mula_seg Bs x z 0) as [r c]. cbn [fst snd]. now rewrite F0, S2.
Qed.
Lemma split3 (p : bytes) m n : (m + n <= length p)%nat -> exists A Bs R, p = A ++ Bs ++ R /\ length A = m /\ length Bs = n.
Proof.
  intros H. exists (firstn m p), (firstn n (skipn m p)), (skipn n (skipn m p)). rewrite !firstn_skipn. split; [reflexivity|].
  rewrite !firstn_length, skipn_length. lia.
Qed.
Lemma split2 (p : bytes) n : (n <= length p)%nat -> exists A R, p = A ++ R /\ length A = n /\ firstn n p = A.
Proof.
  intros H. exists (firstn n p), (skipn n p). rewrite firstn_skipn. split; [reflexivity|]. split; [rewrite firstn_length; lia|reflexivity].
Qed.
Lemma mulaSmall_ok p m x n z p' c : bytes_ok p -> (m + n <= length p)%nat -> (n <= length x)%nat ->
  mulaSmall p p m x n z = (p', c) ->
  length p' = length p /\ bytes_ok p' /\ le2z p' + bb (m + n) * c = le2z p + bb m * (z * le2z (firstn n x)) /\
  (forall j, (m + n <= j)%nat -> nth j p' 0 = nth j p 0).
Proof.
  intros HO HM HN E. destruct (split3 p m n HM) as (A & Bs & R & -> & HA & HBs). destruct (split2 x n HN) as (X & Y & -> & HX & ->).
  subst m. rewrite <- HBs in E. rewrite mulaSmall_shape in E by lia. destruct (mula_seg Bs X z 0) as [r c0] eqn:ES. cbn [fst snd] in E.
  assert (E1 : A ++ r ++ R = p') by congruence. assert (E2 : c0 = c) by congruence. subst p' c0. clear E.
  destruct (seg_ok Bs X z 0 r c ltac:(lia) ES) as (L & O & V).
  apply Forall_app in HO. destruct HO as [OA HO]. apply Forall_app in HO. destruct HO as [OB OR].
  split; [rewrite !app_length; lia|]. split; [apply ok_app; [exact OA|now apply ok_app]|]. split.
  - rewrite !val_app, bb_add, L. rewrite <- HBs. transitivity (le2z A + bb (length A) * (le2z r + bb (length Bs) * c) + bb (length A) * (bb (length Bs) * le2z R)); [ring|]. rewrite V. ring.
  - intros j Hj. rewrite !app_nth2 by lia. now rewrite L.
Qed.

(** ** mula32 *)
Lemma firstn_skipn_S (y : bytes) i cnt : (i < length y)%nat -> firstn (S cnt) (skipn i y) = nth i y 0 :: firstn cnt (skipn (S i) y).
Proof.
  revert y. induction i as [|i IH]; intros [|y0 y] H; cbn [length] in H; try lia.
  - reflexivity.
  - cbn [nth]. change (skipn (S i) (y0 :: y)) with (skipn i y). change (skipn (S (S i)) (y0 :: y)) with (skipn (S i) y). apply IH. lia.
Qed.
Lemma val_32 x : (32 <= length x)%nat -> le2z (firstn 32 x) = le2z (firstn 31 x) + bb 31 * nth 31 x 0.
Proof.
  intros H. destruct (split3 x 31 1 ltac:(lia)) as (X & Y & R & E & HX & HY). destruct Y as [|y [|? ?]]; cbn [length] in HY; try lia. rewrite E.
  assert (F0 : forall (a b : bytes), firstn (length a) (a ++ b) = a) by (intros a b; rewrite firstn_app, firstn_all, Nat.sub_diag; cbn [firstn]; apply app_nil_r).
  assert (F1 : firstn 31 (X ++ [y] ++ R) = X) by (rewrite <- HX; apply F0).
  assert (F2 : firstn 32 (X ++ [y] ++ R) = X ++ [y]) by (rewrite app_assoc; replace 32%nat with (length (X ++ [y])) by (rewrite app_length; cbn [length]; lia); apply F0).
  rewrite F1, F2, val_app, HX. rewrite <- HX at 3. cbn [app]. rewrite app_nth2, Nat.sub_diag by lia. cbn [nth le2z]. lia.
Qed.
Lemma mula32_loop_ok x y z : (32 <= length x)%nat -> forall cnt i p w, bytes_ok p -> (i + cnt + 32 <= length p)%nat -> (i + cnt <= length y)%nat ->
  exists k, let p' := mula32_loop cnt i p x y z w in
    length p' = length p /\ bytes_ok p' /\
    le2z p' = le2z p + bb (i + 31) * w + bb i * (z * le2z (firstn 32 x) * le2z (firstn cnt (skipn i y))) + bb (i + cnt + 32) * k.
Proof.
  intros HX. induction cnt as [|cnt IH]; intros i p w HO HP HY; cbn [mula32_loop]; cbv zeta.
  - exists (- ((w + nth (i + 31) p 0) / 256)). rewrite upd_length. split; [reflexivity|]. split; [apply ok_upd; [exact HO|apply Z.mod_pos_bound; lia]|].
    rewrite val_upd by lia. cbn [firstn le2z]. rewrite Nat.add_0_r. replace (i + 32)%nat with (S (i + 31)) by lia. rewrite bb_S.
    pose proof (Z.div_mod (w + nth (i + 31) p 0) 256 ltac:(lia)) as D. set (q := _ / 256) in *. set (m := _ mod 256) in *.
    replace m with (w + nth (i + 31) p 0 - 256 * q) by lia. ring.
  - destruct (mulaSmall p p i x 31 (z * nth i y 0)) as [p1 c] eqn:E.
    destruct (mulaSmall_ok p i x 31 _ p1 c HO ltac:(lia) ltac:(lia) E) as (L1 & O1 & V1 & N1).
    set (w1 := w + c + nth (i + 31) p 0 + z * nth i y 0 * nth 31 x 0).
    assert (O2 : bytes_ok (upd (i + 31) (w1 mod 256) p1)) by (apply ok_upd; [exact O1|apply Z.mod_pos_bound; lia]).
    destruct (IH (S i) (upd (i + 31) (w1 mod 256) p1) (Z.shiftr w1 8) O2 ltac:(rewrite upd_length; lia) ltac:(lia)) as (k & K). cbv zeta in K.
    destruct K as (L2 & O3 & V2). exists k. split; [rewrite L2, upd_length; exact L1|]. split; [exact O3|]. rewrite V2.
    rewrite val_upd by lia. rewrite firstn_skipn_S by lia. cbn [le2z]. rewrite N1 by lia.
    replace (S i + cnt + 32)%nat with (i + S cnt + 32)%nat by lia. replace (S i + 31)%nat with (S (i + 31)) by lia.
    rewrite !bb_S. rewrite (val_32 x HX). rewrite Z.shiftr_div_pow2 by lia. change (2 ^ 8) with 256.
    pose proof (Z.div_mod w1 256 ltac:(lia)) as D. set (q := w1 / 256) in *. set (m := w1 mod 256) in *.
    assert (EV : le2z p1 = le2z p + bb i * (z * nth i y 0 * le2z (firstn 31 x)) - bb (i + 31) * c) by lia. rewrite EV.
    replace m with (w1 - 256 * q) by lia. unfold w1. rewrite bb_add. ring.
Qed.
Lemma mula32_ok p x y t z : (32 <= length x)%nat -> bytes_ok p -> (t + 32 <= length p)%nat -> (t <= length y)%nat ->
  exists k, length (mula32 p x y t z) = length p /\ bytes_ok (mula32 p x y t z) /\
    le2z (mula32 p x y t z) = le2z p + z * le2z (firstn 32 x) * le2z (firstn t y) + bb (t + 32) * k.
Proof.
  intros HX HO HP HY. unfold mula32. destruct (mula32_loop_ok x y z HX t 0 p 0 HO ltac:(lia) ltac:(lia)) as (k & L & O & V).
  exists k. split; [exact L|]. split; [exact O|]. rewrite V. rewrite bb_0. cbn [skipn]. rewrite !Nat.add_0_l. ring.
Qed.

(** ** divmod *)
Lemma qhat W D dt e dl : D = dt * e + dl -> 0 <= dl < e -> 256 <= dt -> 0 <= W < 256 * D ->
  let z := W / e / dt in 0 <= z /\ - D <= W - z * D < D.
Proof.
  intros HD Hdl Hdt HW z. assert (He : 0 < e) by lia.
  assert (Z1 : z = W / (e * dt)) by (unfold z; apply Z.div_div; lia).
  pose proof (Z.div_mod W (e * dt) ltac:(nia)) as DM. pose proof (Z.mod_pos_bound W (e * dt) ltac:(nia)) as MB. rewrite <- Z1 in DM.
  set (m := W mod (e * dt)) in *. clearbody m. clearbody z. assert (Z0 : 0 <= z) by (rewrite Z1; apply Z.div_pos; nia). clear Z1. split; [exact Z0|].
  assert (Zb : z <= 256).
  { destruct (Z_le_gt_dec z 256) as [H|H]; [exact H|exfalso]. assert (257 * (e * dt) <= z * (e * dt)) by nia. nia. }
  split.
  - subst D W. assert (z * dl <= 256 * e) by nia. assert (256 * e <= dt * e) by nia. nia.
  - subst D W. assert (0 <= z * dl) by nia. nia.
Qed.
Lemma qhat1 W D r : 0 < D -> 0 <= W -> 0 <= r < 256 -> let z := (W * 256 + r) / (D * 256) in 0 <= z /\ - D <= W - z * D < D.
Proof.
  intros HD HW Hr z. assert (Z1 : z = W / D).
  { unfold z. rewrite (Z.mul_comm D 256), <- Z.div_div by lia. f_equal. rewrite Z.div_add_l by lia. rewrite (Z.div_small r) by lia. lia. }
  rewrite Z1. pose proof (Z.div_mod W D ltac:(lia)). pose proof (Z.mod_pos_bound W D ltac:(lia)). split; [apply Z.div_pos; lia|]. lia.
Qed.
(** the divisor's leading digits *)
Definition dtop (d : bytes) (t : nat) : Z :=
  let dt := Z.shiftl (nth (t - 1) d 0) 8 in if Nat.ltb 1 t then Z.lor dt (nth (t - 2) d 0) else dt.
Definition qz (r : bytes) (n : nat) (rn dt : Z) : Z :=
  let z := Z.lor (Z.shiftl rn 16) (Z.shiftl (nth n r 0) 8) in
  let z := if Nat.ltb 0 n then Z.lor z (nth (n - 1) r 0) else z in Z.quot z dt.
Lemma lor_hi a b k : 0 <= k -> 0 <= b < 2 ^ k -> Z.lor (Z.shiftl a k) b = a * 2 ^ k + b.
Proof. intros H1 H2. rewrite Z.lor_comm, lor_add by assumption. lia. Qed.
Lemma qz_num r n rn : 0 <= rn -> bytes_ok r ->
  (if Nat.ltb 0 n then Z.lor (Z.lor (Z.shiftl rn 16) (Z.shiftl (nth n r 0) 8)) (nth (n - 1) r 0) else Z.lor (Z.shiftl rn 16) (Z.shiftl (nth n r 0) 8))
  = rn * 65536 + nth n r 0 * 256 + (if Nat.ltb 0 n then nth (n - 1) r 0 else 0).
Proof.
  intros H1 H2. pose proof (nth_ok r n H2). pose proof (nth_ok r (n - 1) H2).
  assert (E : Z.lor (Z.shiftl rn 16) (Z.shiftl (nth n r 0) 8) = rn * 65536 + nth n r 0 * 256).
  { rewrite lor_hi; [rewrite Z.shiftl_mul_pow2 by lia; reflexivity|lia|]. rewrite Z.shiftl_mul_pow2 by lia. lia. }
  rewrite E. destruct (Nat.ltb 0 n); [|lia].
  replace (rn * 65536 + nth n r 0 * 256) with (Z.shiftl (rn * 256 + nth n r 0) 8) by (rewrite Z.shiftl_mul_pow2 by lia; lia).
  rewrite lor_hi by lia. rewrite Z.shiftl_mul_pow2 by lia. reflexivity.
Qed.
(** the estimated digit is right or one too large *)
Lemma qz_ok A Bs R dd dx rn : bytes_ok (A ++ Bs ++ R) -> bytes_ok dd -> (0 < length dd)%nat -> length Bs = length dd -> 0 <= rn ->
  nth (length dd - 1) dd 0 <> 0 -> le2z Bs + bb (length Bs) * rn < 256 * le2z dd ->
  let n := (length A + length dd - 1)%nat in
  let z := qz (A ++ Bs ++ R) n rn (dtop (dd ++ dx) (length dd)) in
  - le2z dd <= le2z Bs + bb (length Bs) * rn - z * le2z dd < le2z dd.
Proof.
  intros HO OD HD HB Hrn Hnz HW n z. pose proof HO as HO'. apply Forall_app in HO'. destruct HO' as [OA HO']. apply Forall_app in HO'. destruct HO' as [OB OR].
  pose proof (val_lt _ OB) as VB. pose proof (val_lt _ OD) as VD. unfold z, qz. cbv zeta. rewrite qz_num by assumption.
  unfold dtop. cbv zeta.
  destruct dd as [|d0 dd] using rev_ind; [cbn in HD; lia|]. clear IHdd.
  destruct dd as [|d1 dd] using rev_ind; [|clear IHdd].
  - (* one digit *) cbn [app length Nat.sub Nat.ltb Nat.leb nth] in *. destruct Bs as [|b0 [|? ?]]; cbn [length] in HB; try lia.
    rewrite Z.shiftl_mul_pow2 by lia. change (2 ^ 8) with 256. cbn [le2z length] in *. rewrite bb_S, bb_0 in *.
    inversion OD as [|? ? Od0 _]; subst. unfold byte_ok in Od0. inversion OB as [|? ? Ob0 _]; subst. unfold byte_ok in Ob0.
    assert (EN : nth n (A ++ b0 :: R) 0 = b0).
    { unfold n. replace (length A + 1 - 1)%nat with (length A) by lia. rewrite app_nth2 by lia. now rewrite Nat.sub_diag. }
    cbn [app] in *. rewrite EN.
    match goal with |- context [if ?c then nth (n - 1) ?l 0 else 0] => set (r1 := if c then nth (n - 1) l 0 else 0) end.
    assert (R1 : 0 <= r1 < 256) by (unfold r1; destruct n; [lia|now apply nth_ok]). clearbody r1.
    assert (Dp : 0 < d0) by (clear - Hnz Od0; cbn in Hnz; lia).
    rewrite Z.quot_div_nonneg by lia.
    pose proof (qhat1 (b0 + 256 * rn) d0 r1 ltac:(lia) ltac:(lia) R1) as Q. cbv zeta in Q.
    replace (rn * 65536 + b0 * 256 + r1) with ((b0 + 256 * rn) * 256 + r1) by ring. destruct Q as [_ Q].
    replace (b0 + 256 * 0) with b0 by ring. replace (d0 + 256 * 0) with d0 by ring. replace (256 * 1 * rn) with (256 * rn) by ring. exact Q.
  - (* two digits or more *)
    assert (En : n = (length A + (length dd + 1 + 1) - 1)%nat) by (unfold n; rewrite !app_length; reflexivity).
    clear z. clearbody n.
    rewrite app_length in *. rewrite app_length in *. cbn [length] in *.
    destruct Bs as [|b0 Bs] using rev_ind; [cbn in HB; lia|]. clear IHBs. rewrite app_length in HB. cbn [length] in HB.
    destruct Bs as [|b1 Bs] using rev_ind; [cbn in HB; lia|]. clear IHBs. rewrite app_length in HB. cbn [length] in HB.
    assert (HB' : length Bs = length dd) by lia. clear HB.
    assert (LT : Nat.ltb 1 (length dd + 1 + 1) = true) by (apply Nat.ltb_lt; lia). rewrite LT.
    assert (N0 : Nat.ltb 0 n = true) by (apply Nat.ltb_lt; lia). rewrite N0.
    assert (E1 : nth n (A ++ ((Bs ++ [b1]) ++ [b0]) ++ R) 0 = b0).
    { rewrite En. rewrite app_nth2 by lia. rewrite app_nth1 by (rewrite !app_length; cbn [length]; lia).
      rewrite app_nth2 by (rewrite !app_length; cbn [length]; lia). rewrite app_length. cbn [length].
      replace (length A + (length dd + 1 + 1) - 1 - length A - (length Bs + 1))%nat with 0%nat by lia. reflexivity. }
    assert (E2 : nth (n - 1) (A ++ ((Bs ++ [b1]) ++ [b0]) ++ R) 0 = b1).
    { rewrite En. rewrite app_nth2 by lia. rewrite app_nth1 by (rewrite !app_length; cbn [length]; lia).
      rewrite app_nth1 by (rewrite !app_length; cbn [length]; lia). rewrite app_nth2 by lia.
      replace (length A + (length dd + 1 + 1) - 1 - 1 - length A - length Bs)%nat with 0%nat by lia. reflexivity. }
    rewrite E1, E2.
    assert (E3 : nth (length dd + 1 + 1 - 1) (((dd ++ [d1]) ++ [d0]) ++ dx) 0 = d0).
    { rewrite app_nth1 by (rewrite !app_length; cbn [length]; lia). rewrite app_nth2 by (rewrite app_length; cbn [length]; lia). rewrite app_length. cbn [length].
      replace (length dd + 1 + 1 - 1 - (length dd + 1))%nat with 0%nat by lia. reflexivity. }
    assert (E4 : nth (length dd + 1 + 1 - 2) (((dd ++ [d1]) ++ [d0]) ++ dx) 0 = d1).
    { rewrite app_nth1 by (rewrite !app_length; cbn [length]; lia). rewrite app_nth1 by (rewrite app_length; cbn [length]; lia). rewrite app_nth2 by lia.
      replace (length dd + 1 + 1 - 2 - length dd)%nat with 0%nat by lia. reflexivity. }
    rewrite E3, E4.
    assert (E5 : nth (length dd + 1 + 1 - 1) ((dd ++ [d1]) ++ [d0]) 0 = d0).
    { rewrite app_nth2 by (rewrite app_length; cbn [length]; lia). rewrite app_length. cbn [length].
      replace (length dd + 1 + 1 - 1 - (length dd + 1))%nat with 0%nat by lia. reflexivity. }
    rewrite E5 in Hnz.
    apply Forall_app in OD. destruct OD as [OD Od0]. apply Forall_app in OD. destruct OD as [OD Od1].
    apply Forall_app in OB. destruct OB as [OB Ob0]. apply Forall_app in OB. destruct OB as [OB Ob1].
    inversion Od0 as [|? ? Hd0 _]; subst. inversion Od1 as [|? ? Hd1 _]; subst. inversion Ob0 as [|? ? Hb0 _]; subst. inversion Ob1 as [|? ? Hb1 _]; subst.
    unfold byte_ok in *. rewrite lor_hi by lia. change (2 ^ 8) with 256.
    rewrite !val_app in *. rewrite !app_length in *. cbn [length le2z] in *. rewrite !bb_add, ?bb_S, ?bb_0 in *. rewrite HB' in *.
    pose proof (val_lt _ OD) as VdL. pose proof (val_lt _ OB) as VbL. rewrite HB' in VbL.
    set (e := bb (length dd)) in *. set (dl := le2z dd) in *. set (bl := le2z Bs) in *. pose proof (bb_pos (length dd)) as He. fold e in He. clearbody e dl bl.
    rewrite Z.quot_div_nonneg by lia.
    assert (EW : bl + e * (b1 + 256 * 0) + e * (256 * 1) * (b0 + 256 * 0) + e * (256 * 1) * (256 * 1) * rn = bl + (rn * 65536 + b0 * 256 + b1) * e) by ring.
    assert (ED : dl + e * (d1 + 256 * 0) + e * (256 * 1) * (d0 + 256 * 0) = (d0 * 256 + d1) * e + dl) by ring.
    rewrite EW, ED in *.
    pose proof (qhat (bl + (rn * 65536 + b0 * 256 + b1) * e) ((d0 * 256 + d1) * e + dl) (d0 * 256 + d1) e dl eq_refl VdL ltac:(lia)) as Q.
    assert (P0 : 0 <= (rn * 65536 + b0 * 256 + b1) * e) by (apply Z.mul_nonneg_nonneg; lia).
    specialize (Q ltac:(split; [lia|exact HW])). cbv zeta in Q.
    rewrite Z.div_add in Q by lia. rewrite (Z.div_small bl e) in Q by exact VbL. rewrite Z.add_0_l in Q. apply Q.
Qed.

Lemma skipn_upd (q : bytes) c v : (c < length q)%nat -> skipn c (upd c v q) = v :: skipn (S c) q.
Proof.
  revert c. induction q as [|q0 q IH]; intros [|c] H; cbn [length] in H; try lia; [reflexivity|]. cbn [upd].
  change (skipn (S c) (q0 :: upd c v q)) with (skipn c (upd c v q)). rewrite IH by lia. reflexivity.
Qed.
Lemma firstn_S_skipn (q : bytes) c v l : skipn c q = v :: l -> (c < length q)%nat -> firstn (S c) q = firstn c q ++ [v] /\ skipn (S c) q = l.
Proof.
  revert q. induction c as [|c IH]; intros [|q0 q] H HL; cbn [length] in HL; try lia.
  - cbn [skipn] in H. injection H as -> ->. split; reflexivity.
  - change (skipn (S c) (q0 :: q)) with (skipn c q) in H. destruct (IH q H ltac:(lia)) as [E1 E2]. split.
    + change (firstn (S (S c)) (q0 :: q)) with (q0 :: firstn (S c) q). rewrite E1. reflexivity.
    + exact E2.
Qed.
Lemma upd_at (A : bytes) x R v : upd (length A) v (A ++ x :: R) = A ++ v :: R.
Proof. induction A as [|a A IH]; [reflexivity|]. cbn [length app upd]. now rewrite IH. Qed.
Lemma nth_at (A : bytes) x R : nth (length A) (A ++ x :: R) 0 = x.
Proof. induction A as [|a A IH]; [reflexivity|]. exact IH. Qed.

Section Divmod.
Variables dd dx : bytes.
Hypothesis OD : bytes_ok dd.
Hypothesis HD : (0 < length dd)%nat.
Hypothesis Hnz : nth (length dd - 1) dd 0 <> 0.
Let D := le2z dd.
Let t := length dd.
Lemma D_pos : 0 < D /\ D < bb t.
Proof using OD HD Hnz.
  pose proof (val_lt dd OD) as B. fold D t in B. split; [|lia].
  destruct (Z.eq_dec D 0) as [E|E]; [exfalso|lia]. apply Hnz. rewrite nth_le2z by exact OD. fold D. rewrite E.
  rewrite Z.div_0_l; [reflexivity|]. pose proof (bb_pos (length dd - 1)). unfold bb in H. lia.
Qed.
Lemma divmod_step A Bs R rn z r1 c r2 c2 : bytes_ok (A ++ Bs ++ R) -> length Bs = t -> 0 <= rn -> le2z Bs + bb t * rn < 256 * D ->
  z = qz (A ++ Bs ++ R) (length A + t - 1) rn (dtop (dd ++ dx) t) ->
  mulaSmall (A ++ Bs ++ R) (A ++ Bs ++ R) (length A) (dd ++ dx) t (- z) = (r1, c) ->
  mulaSmall r1 r1 (length A) (dd ++ dx) t (- (rn + c)) = (r2, c2) ->
  exists B', r2 = A ++ B' ++ R /\ length B' = t /\ bytes_ok B' /\ le2z B' = (le2z Bs + bb t * rn) mod D /\
    z + (rn + c) = (le2z Bs + bb t * rn) / D.
Proof using OD HD Hnz.
  intros HO HB Hrn HW Hz E1 E2. destruct D_pos as [D0 D1]. pose proof HO as HO'. apply Forall_app in HO'. destruct HO' as [OA HO']. apply Forall_app in HO'. destruct HO' as [OB OR].
  pose proof (qz_ok A Bs R dd dx rn HO OD HD HB Hrn Hnz ltac:(rewrite HB; exact HW)) as Q. cbv zeta in Q. fold t in Q. rewrite <- Hz in Q. fold D in Q. rewrite HB in Q. clear Hz HW.
  rewrite <- HB in E1, E2. rewrite mulaSmall_shape in E1 by (symmetry; exact HB).
  destruct (mula_seg Bs dd (- z) 0) as [s1 c1] eqn:S1. cbn [fst snd] in E1.
  assert (R1 : r1 = A ++ s1 ++ R) by congruence. assert (C1 : c1 = c) by congruence. clear E1. subst r1 c1.
  destruct (seg_ok Bs dd (- z) 0 s1 c HB S1) as (L1 & O1 & V1).
  rewrite <- L1 in E2. rewrite mulaSmall_shape in E2 by (rewrite L1; symmetry; exact HB).
  destruct (mula_seg s1 dd (- (rn + c)) 0) as [s2 c3] eqn:S2. cbn [fst snd] in E2.
  assert (R2 : r2 = A ++ s2 ++ R) by congruence. clear E2. subst r2.
  destruct (seg_ok s1 dd (- (rn + c)) 0 s2 c3 ltac:(rewrite L1; exact HB) S2) as (L2 & O2 & V2). fold D in V1, V2.
  assert (L1' : length s1 = t) by lia. assert (L2' : length s2 = t) by lia. rewrite HB in V1. rewrite L1' in V2.
  pose proof (val_lt s1 O1) as B1. pose proof (val_lt s2 O2) as B2. rewrite L1' in B1. rewrite L2' in B2.
  exists s2. split; [reflexivity|]. split; [exact L2'|]. split; [exact O2|].
  set (W := le2z Bs + bb t * rn) in *. set (b := bb t) in *. assert (EW : W - z * D = le2z s1 + b * (rn + c)) by (unfold W; lia).
  set (w := le2z s1) in *. set (w2 := le2z s2) in *. set (g := rn + c) in *. clearbody W b w w2 g D. clear - D0 D1 Q V2 B1 B2 EW.
  assert (G : g = 0 \/ g = -1).
  { assert (g < 1) by (clear V2; nia). assert (-2 < g) by (clear V2; nia). lia. }
  destruct G as [G|G]; subst g.
  - assert (c3 = 0) by nia. subst c3. assert (E : W = D * z + w2) by lia.
    split; [apply (Z.mod_unique_pos W D z); lia|]. rewrite Z.add_0_r. apply (Z.div_unique_pos W D z w2); lia.
  - assert (c3 = 1) by nia. subst c3. assert (E : W = D * (z - 1) + w2) by lia.
    split; [apply (Z.mod_unique_pos W D (z - 1)); lia|]. replace (z + -1) with (z - 1) by lia. apply (Z.div_unique_pos W D (z - 1) w2); lia.
Qed.
Lemma divmod_loop_ok cnt : forall q r0 rest rn q' r' rn', bytes_ok q -> (cnt <= length q)%nat -> bytes_ok r0 -> bytes_ok rest ->
  length r0 = (cnt + t - 1)%nat -> 0 <= rn < 256 -> le2z r0 + bb (cnt + t - 1) * rn < bb cnt * D ->
  divmod_loop cnt q (r0 ++ rest) (dd ++ dx) t (dtop (dd ++ dx) t) rn = (q', r', rn') ->
  let V := le2z r0 + bb (cnt + t - 1) * rn in
  length q' = length q /\ bytes_ok q' /\ skipn cnt q' = skipn cnt q /\ le2z (firstn cnt q') = V / D /\
  exists rl, r' = rl ++ repeat 0 cnt ++ rest /\ length rl = (t - 1)%nat /\ bytes_ok rl /\ 0 <= rn' < 256 /\ le2z rl + bb (t - 1) * rn' = V mod D.
Proof using OD HD Hnz.
  destruct D_pos as [D0 D1]. assert (T0 : (0 < t)%nat) by exact HD.
  induction cnt as [|cnt IH]; intros q r0 rest rn q' r' rn' OQ LQ O0 OR L0 Hrn HV E; cbn [divmod_loop] in E; cbv zeta.
  - assert (E1 : q' = q) by congruence. assert (E2 : r' = r0 ++ rest) by congruence. assert (E3 : rn' = rn) by congruence. subst.
    rewrite bb_0 in HV. cbn [Nat.add] in *. pose proof (val_lt r0 O0) as B0. rewrite L0 in B0.
    assert (P : 0 <= bb (t - 1) * rn) by (pose proof (bb_pos (t - 1)); nia).
    split; [reflexivity|]. split; [exact OQ|]. split; [reflexivity|]. split; [cbn [firstn le2z]; symmetry; apply Z.div_small; lia|].
    exists r0. split; [reflexivity|]. split; [exact L0|]. split; [exact O0|]. split; [exact Hrn|]. symmetry. apply Z.mod_small. lia.
  - destruct (split2 r0 cnt ltac:(lia)) as (A & Bs & EA & LA & _). assert (LB : length Bs = t) by (rewrite EA, app_length in L0; lia).
    subst r0. apply Forall_app in O0. destruct O0 as [OA OB]. rewrite <- app_assoc in E.
    replace (S cnt + t - 1)%nat with (cnt + t)%nat in * by lia. rewrite val_app, LA, bb_add in *. rewrite bb_S in HV.
    pose proof (val_lt A OA) as BA. rewrite LA in BA. pose proof (bb_pos cnt) as Bc. pose proof (val_lt Bs OB) as BB. rewrite LB in BB.
    assert (HW : le2z Bs + bb t * rn < 256 * D).
    { apply (Zmult_gt_0_lt_reg_r _ _ (bb cnt)); [lia|]. clear - HV BA. set (x := bb cnt) in *. set (y := bb t) in *. set (b := le2z Bs) in *. lia. }
    fold (qz (A ++ Bs ++ rest) (cnt + t - 1) rn (dtop (dd ++ dx) t)) in E. set (z := qz _ _ _ _) in E.
    assert (EI : (cnt + t - 1 + 1 - t)%nat = cnt) by (clear - T0; lia). rewrite EI in E.
    destruct (mulaSmall (A ++ Bs ++ rest) (A ++ Bs ++ rest) cnt (dd ++ dx) t (- z)) as [r1 c] eqn:E1.
    destruct (mulaSmall r1 r1 cnt (dd ++ dx) t (- (rn + c))) as [r2 c2] eqn:E2.
    rewrite <- LA in E1, E2.
    destruct (divmod_step A Bs rest rn z r1 c r2 c2 ltac:(apply ok_app; [exact OA|now apply ok_app]) LB ltac:(lia) HW ltac:(unfold z; now rewrite LA) E1 E2) as (B' & R2 & LB' & OB' & VB' & VQ).
    set (W := le2z Bs + bb t * rn) in *.
    subst r2. destruct B' as [|bt B'] using rev_ind; [cbn [length] in LB'; lia|]. clear IHB'. rewrite app_length in LB'. cbn [length] in LB'.
    assert (SH : A ++ (B' ++ [bt]) ++ rest = (A ++ B') ++ bt :: rest) by (rewrite <- !app_assoc; reflexivity). rewrite SH in E.
    assert (LN : (cnt + t - 1)%nat = length (A ++ B')) by (rewrite app_length; lia). rewrite LN in E. rewrite nth_at, upd_at in E.
    assert (QB : 0 <= W / D < 256).
    { assert (0 <= W) by (unfold W; pose proof (bb_pos t); nia). split; [apply Z.div_pos; lia|]. apply Z.div_lt_upper_bound; lia. }
    assert (E3 : (z + (rn + c)) mod 256 = W / D) by (rewrite VQ; apply Z.mod_small; exact QB). rewrite E3 in E.
    apply Forall_app in OB'. destruct OB' as [OB' Obt]. assert (Hbt : 0 <= bt < 256) by (inversion Obt; assumption).
    rewrite val_app in VB'. cbn [le2z] in VB'. rewrite Z.mul_0_r, Z.add_0_r in VB'. replace (length B') with (t - 1)%nat in VB' by lia.
    pose proof (Z.mod_pos_bound W D D0) as MB. pose proof (Z.div_mod W D ltac:(lia)) as DM.
    assert (HV' : le2z (A ++ B') + bb (cnt + t - 1) * bt = le2z A + bb cnt * (W mod D)).
    { rewrite val_app, LA, <- VB'. replace (cnt + t - 1)%nat with (cnt + (t - 1))%nat by lia. rewrite bb_add. ring. }
    specialize (IH (upd cnt (W / D) q) (A ++ B') (0 :: rest) bt q' r' rn').
    destruct IH as (I1 & I2 & I3 & I4 & rl & I5 & I6 & I7 & I8 & I9).
    + now apply ok_upd.
    + rewrite upd_length. lia.
    + now apply ok_app.
    + constructor; [unfold byte_ok; lia|exact OR].
    + rewrite app_length. lia.
    + exact Hbt.
    + rewrite HV'. clear - MB BA Bc. nia.
    + exact E.
    + rewrite HV' in I4, I9. rewrite skipn_upd in I3 by lia. rewrite upd_length in I1.
      destruct (firstn_S_skipn q' cnt _ _ I3 ltac:(lia)) as [F1 F2].
      assert (EV : le2z A + bb cnt * le2z Bs + bb cnt * bb t * rn = (le2z A + bb cnt * (W mod D)) + (bb cnt * (W / D)) * D).
      { transitivity (le2z A + bb cnt * W); [unfold W; ring|]. rewrite DM at 1. ring. }
      split; [exact I1|]. split; [exact I2|]. split; [exact F2|]. split.
      * rewrite F1, val_app, firstn_length, Nat.min_l by lia. rewrite I4, EV, Z.div_add by lia. cbn [le2z]. ring.
      * exists rl. split; [rewrite I5; cbn [repeat app]; f_equal|].
        { clear. induction cnt as [|cnt IH]; [reflexivity|]. cbn [repeat app]. now rewrite IH. }
        split; [exact I6|]. split; [exact I7|]. split; [exact I8|]. rewrite I9, EV. rewrite Z.mod_add by lia. reflexivity.
Qed.
Lemma divmod_ok q r0 rest q' r' : bytes_ok q -> bytes_ok r0 -> bytes_ok rest -> (t <= length r0)%nat -> (length r0 - t + 1 <= length q)%nat ->
  divmod q (r0 ++ rest) (length r0) (dd ++ dx) t = (q', r') ->
  length q' = length q /\ bytes_ok q' /\ le2z (firstn (length r0 - t + 1) q') = le2z r0 / D /\
  exists rm, r' = rm ++ rest /\ length rm = length r0 /\ bytes_ok rm /\ le2z rm = le2z r0 mod D.
Proof using OD HD Hnz.
  intros OQ O0 OR LT LQ E. assert (T0 : (0 < t)%nat) by exact HD. destruct D_pos as [D0 D1]. unfold divmod in E. fold (dtop (dd ++ dx) t) in E.
  set (cnt := (length r0 - t + 1)%nat) in *. replace (length r0 - (t - 1))%nat with cnt in E by lia.
  destruct (divmod_loop cnt q (r0 ++ rest) (dd ++ dx) t (dtop (dd ++ dx) t) 0) as [[q1 r1] rn1] eqn:EL.
  assert (X1 : q1 = q') by congruence. assert (X2 : upd (t - 1) (rn1 mod 256) r1 = r') by congruence. subst q1. clear E.
  pose proof (val_lt r0 O0) as B0. pose proof (bb_pos (t - 1)) as Bt.
  assert (DL : bb (t - 1) <= D).
  { assert (nth (t - 1) dd 0 <> 0) as N by exact Hnz. rewrite nth_le2z in N by exact OD. fold D in N. fold (bb (t - 1)) in N.
    destruct (Z_lt_le_dec D (bb (t - 1))) as [L|L]; [exfalso; apply N; rewrite Z.div_small by lia; reflexivity|exact L]. }
  assert (HV : le2z r0 + bb (cnt + t - 1) * 0 < bb cnt * D).
  { rewrite Z.mul_0_r, Z.add_0_r. assert (bb (length r0) = bb cnt * bb (t - 1)) as EB by (rewrite <- bb_add; f_equal; lia).
    rewrite EB in B0. pose proof (bb_pos cnt). nia. }
  destruct (divmod_loop_ok cnt q r0 rest 0 q' r1 rn1 OQ LQ O0 OR ltac:(lia) ltac:(lia) HV EL) as (I1 & I2 & I3 & I4 & rl & I5 & I6 & I7 & I8 & I9).
  rewrite Z.mul_0_r, Z.add_0_r in I4, I9. split; [exact I1|]. split; [exact I2|]. split; [exact I4|].
  exists (rl ++ rn1 :: repeat 0 (cnt - 1)). subst r1. rewrite Z.mod_small in X2 by exact I8.
  assert (C1 : cnt = S (cnt - 1)) by lia. rewrite C1 in X2. cbn [repeat app] in X2. rewrite <- I6, upd_at in X2. split; [rewrite <- X2, <- app_assoc; reflexivity|].
  split; [rewrite app_length; cbn [length]; rewrite repeat_length; lia|]. split; [apply ok_app; [exact I7|constructor; [exact I8|apply ok_repeat]]|].
  rewrite val_app. cbn [le2z]. rewrite val_repeat, Z.mul_0_r, Z.add_0_r, I6. exact I9.
Qed.
End Divmod.

(** ** numsize *)
Definition sized (l : bytes) (n : nat) : Prop := bytes_ok l /\ (n <= length l)%nat /\ le2z l < bb n /\ (n = 0%nat \/ bb (n - 1) <= le2z l).
Lemma numsize_ok l n : bytes_ok l -> (n <= length l)%nat -> le2z l < bb n -> sized l (numsize l n) /\ (numsize l n <= n)%nat.
Proof.
  intros HO. induction n as [|i IH]; intros HL HV; cbn [numsize].
  - split; [|lia]. split; [exact HO|]. split; [exact HL|]. split; [exact HV|now left].
  - pose proof (nth_le2z l i HO) as N. fold (bb i) in N. pose proof (bb_pos i) as Bp. pose proof (proj1 (val_lt l HO)) as V0. rewrite bb_S in HV.
    assert (Q : 0 <= le2z l / bb i < 256) by (split; [apply Z.div_pos; lia|apply Z.div_lt_upper_bound; lia]). rewrite Z.mod_small in N by exact Q.
    destruct (Z.eqb_spec (nth i l 0) 0) as [E|E].
    + rewrite E in N. symmetry in N. apply Z.div_small_iff in N; [|lia]. destruct (IH ltac:(lia) ltac:(lia)) as [A B]. split; [exact A|lia].
    + split; [|lia]. split; [exact HO|]. split; [exact HL|]. split; [now rewrite bb_S|right]. replace (S i - 1)%nat with i by lia.
      destruct (Z_lt_le_dec (le2z l) (bb i)) as [X|X]; [exfalso; apply E; rewrite N; now apply Z.div_small|exact X].
Qed.
Lemma sized_0 l n : sized l n -> (n = 0%nat <-> le2z l = 0).
Proof.
  intros (O & L & V & T). pose proof (proj1 (val_lt l O)). split; [intros ->; rewrite bb_0 in V; lia|]. intros E. destruct T as [T|T]; [exact T|]. pose proof (bb_pos (n - 1)). lia.
Qed.
Lemma bb_le m n : (m <= n)%nat -> bb m <= bb n.
Proof. intros H. unfold bb. apply Z.pow_le_mono_r; lia. Qed.
Lemma bb_lt_inv m n : bb m < bb n -> (m < n)%nat.
Proof. intros H. destruct (le_lt_dec n m) as [L|L]; [|exact L]. apply bb_le in L. lia. Qed.
Lemma sized_top l n : sized l n -> (0 < n)%nat -> nth (length (firstn n l) - 1) (firstn n l) 0 <> 0.
Proof.
  intros (O & L & V & T) Hn. destruct T as [T|T]; [lia|]. rewrite firstn_length, Nat.min_l by exact L.
  rewrite nth_le2z by now apply ok_firstn. fold (bb (n - 1)). rewrite val_firstn by assumption. pose proof (proj1 (val_lt l O)) as V0. rewrite (Z.mod_small (le2z l)) by lia.
  pose proof (bb_pos (n - 1)) as Bp. assert (bb n = 256 * bb (n - 1)) as EB by (rewrite <- bb_S; f_equal; lia).
  rewrite Z.mod_small.
  - assert (1 <= le2z l / bb (n - 1)) by (apply Z.div_le_lower_bound; lia). lia.
  - split; [apply Z.div_pos; lia|apply Z.div_lt_upper_bound; lia].
Qed.
Lemma divmod_sized q b bn a an q' b' : sized a an -> (0 < an)%nat -> bytes_ok b -> (bn <= length b)%nat -> le2z b < bb bn -> (an <= bn)%nat ->
  bytes_ok q -> (bn - an + 1 <= length q)%nat -> divmod q b bn a an = (q', b') ->
  length q' = length q /\ bytes_ok q' /\ le2z (firstn (bn - an + 1) q') = le2z b / le2z a /\
  length b' = length b /\ bytes_ok b' /\ le2z b' = le2z b mod le2z a.
Proof.
  intros SA Ha OB LB VB AB OQ LQ E. pose proof (sized_top a an SA Ha) as NZ. destruct SA as (OA & LA & VA & _).
  pose proof (ok_firstn an a OA) as ODD. assert (LD : length (firstn an a) = an) by (rewrite firstn_length; lia).
  assert (VD : le2z (firstn an a) = le2z a) by (rewrite val_firstn by assumption; apply Z.mod_small; pose proof (proj1 (val_lt a OA)); lia).
  assert (LR : length (firstn bn b) = bn) by (rewrite firstn_length; lia).
  assert (VR : le2z (firstn bn b) = le2z b) by (rewrite val_firstn by assumption; apply Z.mod_small; pose proof (proj1 (val_lt b OB)); lia).
  assert (VS : le2z (skipn bn b) = 0).
  { pose proof (val_app (firstn bn b) (skipn bn b)) as S. rewrite firstn_skipn, VR, LR in S. pose proof (bb_pos bn). nia. }
  pose proof (divmod_ok (firstn an a) (skipn an a) ODD ltac:(lia) NZ q (firstn bn b) (skipn bn b) q' b' OQ (ok_firstn _ _ OB) (ok_skipn _ _ OB)) as K.
  rewrite !firstn_skipn, LD, LR, VD, VR in K. destruct (K AB LQ E) as (K1 & K2 & K3 & rm & K4 & K5 & K6 & K7).
  split; [exact K1|]. split; [exact K2|]. split; [exact K3|]. subst b'. split; [rewrite app_length, K5, skipn_length; lia|].
  split; [apply ok_app; [exact K6|now apply ok_skipn]|]. rewrite val_app, VS, K7. lia.
Qed.

(** ** egcd32 *)
Section Egcd.
Variables A Q : Z.
Hypothesis Q0 : 0 < Q.
Hypothesis CO : Z.gcd A Q = 1.
Lemma bound_l X Y a b : 0 <= X -> Y <= 0 -> 0 < a -> 0 < b -> X * b - Y * a = Q -> - Q <= X <= Q.
Proof using Q0. intros. assert (0 <= - Y * a) by nia. nia. Qed.
Lemma bound_r X Y a b : 0 <= X -> Y <= 0 -> 0 < a -> 0 <= b -> X * b - Y * a = Q -> - Q <= Y <= Q.
Proof using Q0. intros. assert (0 <= X * b) by nia. nia. Qed.
Definition low (l : bytes) (X : Z) : Prop := bytes_ok l /\ length l = 64%nat /\ le2z l mod bb 32 = X mod bb 32.
Definition inv (X : Z) : Prop := (X * A) mod Q = 1 mod Q /\ - Q <= X <= Q.
Lemma low_mula y x q t X Y : low y Y -> low x X -> bytes_ok q -> (t <= 32)%nat -> (t <= length q)%nat ->
  low (mula32 y x q t (-1)) (Y - le2z (firstn t q) * X).
Proof using.
  intros (Oy & Ly & Vy) (Ox & Lx & Vx) Oq Ht Lq.
  destruct (mula32_ok y x q t (-1) ltac:(clear - Lx; lia) Oy ltac:(clear - Ht Ly; lia) Lq) as (k & L & O & V).
  split; [exact O|]. split; [now rewrite L|]. rewrite V, bb_add. rewrite val_firstn by (assumption || (clear - Lx; lia)). rewrite Vx.
  pose proof (bb_pos 32) as B. set (b := bb 32) in *. set (g := le2z (firstn t q)).
  replace (le2z y + -1 * (X mod b) * g + bb t * b * k) with (le2z y + -1 * (X mod b) * g + (bb t * k) * b) by ring. rewrite Z.mod_add by lia.
  rewrite (Z.div_mod (le2z y) b) by lia. rewrite Vy. rewrite (Z.mod_eq X b) by lia. rewrite (Z.mod_eq Y b) by lia.
  replace (b * (le2z y / b) + (Y - b * (Y / b)) + -1 * (X - b * (X / b)) * g) with (Y - g * X + (le2z y / b - Y / b + g * (X / b)) * b) by ring.
  apply Z.mod_add. lia.
Qed.
Lemma egcd_loop_ok fuel : forall x y a b tmp an bn X Y, low x X -> low y Y -> sized a an -> (0 < an)%nat -> length a = 32%nat -> bytes_ok b -> length b = 32%nat ->
  (bn <= 32)%nat -> le2z b < bb bn -> 0 < le2z b -> (an <= bn)%nat -> bytes_ok tmp -> length tmp = 32%nat ->
  0 <= X -> Y <= 0 -> X * le2z b - Y * le2z a = Q -> (X * A) mod Q = le2z a mod Q -> (Y * A) mod Q = le2z b mod Q -> Z.gcd (le2z a) (le2z b) = 1 ->
  le2z a < 2 ^ Z.of_nat fuel -> exists r R, egcd_loop fuel x y a b tmp an bn = Some r /\ low r R /\ inv R.
Proof using Q0.
  induction fuel as [|fuel IH]; intros x y a b tmp an bn X Y LX LY SA Ha La Ob Lb Hbn Vb Pb Hab Ot Lt X0 Y0 XY CX CY G HF.
  - exfalso. change (2 ^ Z.of_nat 0) with 1 in HF. pose proof (proj1 (sized_0 a an SA)). pose proof (proj1 (val_lt a (proj1 SA))). assert (an <> 0%nat) by lia. apply H1. apply (sized_0 a an SA). lia.
  - cbn [egcd_loop]. destruct (divmod tmp b bn a an) as [tmp1 b1] eqn:E1.
    destruct (divmod_sized tmp b bn a an tmp1 b1 SA Ha Ob ltac:(lia) Vb Hab Ot ltac:(lia) E1) as (T1 & T2 & T3 & T4 & T5 & T6).
    assert (Pa : 0 < le2z a). { pose proof (proj1 (val_lt a (proj1 SA))). destruct (Z.eq_dec (le2z a) 0) as [Z|Z]; [|lia]. apply (sized_0 a an SA) in Z. lia. }
    pose proof (Z.mod_pos_bound (le2z b) (le2z a) Pa) as M1. rewrite <- T6 in M1. pose proof (Z.div_mod (le2z b) (le2z a) ltac:(lia)) as DM1. rewrite <- T6, <- T3 in DM1.
    assert (Va : le2z a < bb an) by apply SA.
    destruct (numsize_ok b1 bn T5 ltac:(lia) ltac:(pose proof (bb_le an bn Hab); lia)) as [S1 N1]. set (bn1 := numsize b1 bn) in *.
    assert (G1 : Z.gcd (le2z a) (le2z b1) = 1) by (rewrite T6, Z.gcd_comm, Z.gcd_mod by lia; exact G).
    set (g1 := le2z (firstn (bn - an + 1) tmp1)) in *.
    assert (g1p : 0 <= g1) by (unfold g1; apply (val_lt _ (ok_firstn _ _ T2))).
    destruct (Nat.eqb_spec bn1 0) as [Z1|Z1].
    { apply (sized_0 _ _ S1) in Z1. rewrite Z1, Z.gcd_0_r, Z.abs_eq in G1 by lia. exists x, X. split; [reflexivity|]. split; [exact LX|]. split; [rewrite CX, G1; reflexivity|].
      exact (bound_l X Y (le2z a) (le2z b) X0 Y0 Pa Pb XY). }
    assert (Pb1 : 0 < le2z b1) by (destruct (Z.eq_dec (le2z b1) 0) as [Z|Z]; [apply (sized_0 _ _ S1) in Z; contradiction|lia]).
    assert (LY1 : low (mula32 y x tmp1 (bn - an + 1) (-1)) (Y - g1 * X)) by (apply low_mula; try assumption; lia).
    set (y1 := mula32 y x tmp1 (bn - an + 1) (-1)) in *. clearbody y1.
    assert (CY1 : ((Y - g1 * X) * A) mod Q = le2z b1 mod Q).
    { replace ((Y - g1 * X) * A) with (Y * A - g1 * (X * A)) by ring. rewrite Zminus_mod, CY, <- Zmult_mod_idemp_r, CX, Zmult_mod_idemp_r, <- Zminus_mod. f_equal. lia. }
    assert (XY1 : X * le2z b1 - (Y - g1 * X) * le2z a = Q) by (rewrite <- XY, DM1; ring).
    assert (Y1 : Y - g1 * X <= 0) by (clear - Y0 X0 g1p; nia). set (Yn := Y - g1 * X) in *. clearbody Yn.
    assert (AB1 : (bn1 <= an)%nat).
    { destruct S1 as (_ & _ & _ & [W|W]); [lia|]. assert (bb (bn1 - 1) < bb an) as W2 by lia. apply bb_lt_inv in W2. lia. }
    destruct (divmod tmp1 a an b1 bn1) as [tmp2 a1] eqn:E2.
    destruct (divmod_sized tmp1 a an b1 bn1 tmp2 a1 S1 ltac:(lia) (proj1 SA) ltac:(apply SA) Va AB1 T2 ltac:(pose proof (proj1 (proj2 SA)); lia) E2) as (U1 & U2 & U3 & U4 & U5 & U6).
    pose proof (Z.mod_pos_bound (le2z a) (le2z b1) Pb1) as M2. rewrite <- U6 in M2. pose proof (Z.div_mod (le2z a) (le2z b1) ltac:(lia)) as DM2. rewrite <- U6, <- U3 in DM2.
    assert (Vb1 : le2z b1 < bb bn1) by apply S1.
    destruct (numsize_ok a1 an U5 ltac:(pose proof (proj1 (proj2 SA)); lia) ltac:(pose proof (bb_le bn1 an AB1); lia)) as [S2 N2]. set (an1 := numsize a1 an) in *.
    assert (G2 : Z.gcd (le2z a1) (le2z b1) = 1) by (rewrite U6, Z.gcd_mod by lia; rewrite Z.gcd_comm; exact G1).
    set (g2 := le2z (firstn (an - bn1 + 1) tmp2)) in *.
    assert (g2p : 0 <= g2) by (unfold g2; apply (val_lt _ (ok_firstn _ _ U2))).
    destruct (Nat.eqb_spec an1 0) as [Z2|Z2].
    { apply (sized_0 _ _ S2) in Z2. rewrite Z2, Z.gcd_0_l, Z.abs_eq in G2 by lia. exists y1, Yn. split; [reflexivity|]. split; [exact LY1|]. split; [rewrite CY1, G2; reflexivity|].
      exact (bound_r X Yn (le2z a) (le2z b1) X0 Y1 Pa (Z.lt_le_incl _ _ Pb1) XY1). }
    assert (Pa1 : 0 < le2z a1) by (destruct (Z.eq_dec (le2z a1) 0) as [Z|Z]; [apply (sized_0 _ _ S2) in Z; contradiction|lia]).
    assert (LX1 : low (mula32 x y1 tmp2 (an - bn1 + 1) (-1)) (X - g2 * Yn)) by (pose proof (proj1 (proj2 SA)); apply low_mula; try assumption; lia).
    set (x1 := mula32 x y1 tmp2 (an - bn1 + 1) (-1)) in *. clearbody x1.
    assert (CX1 : ((X - g2 * Yn) * A) mod Q = le2z a1 mod Q).
    { replace ((X - g2 * Yn) * A) with (X * A - g2 * (Yn * A)) by ring. rewrite Zminus_mod, CX, <- Zmult_mod_idemp_r, CY1, Zmult_mod_idemp_r, <- Zminus_mod. f_equal. lia. }
    assert (XY2 : (X - g2 * Yn) * le2z b1 - Yn * le2z a1 = Q) by (rewrite <- XY1, DM2; ring).
    assert (X1 : 0 <= X - g2 * Yn) by (clear - X0 Y1 g2p; nia).
    apply (IH x1 y1 a1 b1 tmp2 an1 bn1 (X - g2 * Yn) Yn); try assumption; try lia.
    + destruct S2 as (_ & _ & _ & [W|W]); [lia|]. assert (bb (an1 - 1) < bb bn1) as W2 by lia. apply bb_lt_inv in W2. lia.
    + rewrite Nat2Z.inj_succ, Z.pow_succ_r in HF by lia. clear - HF DM2 M2 M1 Pb1 g2p. assert (1 <= g2) by nia. nia.
Qed.
Lemma egcd32_ok a b : bytes_ok a -> length a = 32%nat -> bytes_ok b -> length b = 32%nat -> le2z a = A -> le2z b = Q -> 0 < A ->
  exists r R, egcd32 a b = Some r /\ low r R /\ inv R.
Proof using Q0 CO.
  intros OA LA OB LB EA EQ A0. unfold egcd32. pose proof (val_lt a OA) as VA. pose proof (val_lt b OB) as VB. rewrite LA in VA. rewrite LB in VB.
  destruct (numsize_ok a 32 OA ltac:(lia) ltac:(lia)) as [S N]. set (an := numsize a 32) in *. cbv zeta.
  destruct (Nat.eqb_spec an 0) as [Z|Z]; [exfalso; apply (sized_0 _ _ S) in Z; lia|].
  assert (LX : low (1 :: repeat 0 63) 1).
  { split; [constructor; [unfold byte_ok; lia|apply ok_repeat]|]. split; [reflexivity|]. cbn [le2z]. rewrite val_repeat. reflexivity. }
  assert (LY : low (repeat 0 64) 0).
  { split; [apply ok_repeat|]. split; [reflexivity|]. now rewrite val_repeat. }
  apply (egcd_loop_ok 256 _ _ a b (repeat 0 32) an 32 1 0 LX LY S); try assumption; try lia.
  - apply ok_repeat.
  - reflexivity.
  - rewrite EA. f_equal. lia.
  - rewrite EQ, Z.mod_same by lia. reflexivity.
  - rewrite EA, EQ. exact CO.
  - change (2 ^ Z.of_nat 256) with (bb 32). apply VA.
Qed.
End Egcd.
