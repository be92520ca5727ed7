(** Sign of the public point, inverse exponent and signing in curve25519_sha256.go. *)
Require Import ZArith List Lia Bool Znumtheory Field.
Require Import Verif.Base Verif.Words Verif.Fp Verif.Group Verif.Edw Verif.SpecEd Verif.SpecCsha Verif.EdCurve Verif.ModelSlp Verif.ModelEd Verif.ProofSlp Verif.ProofEdF Verif.ProofEdG Verif.ProofEdC Verif.ProofEdX Verif.ProofEdN.
Require Import Verif.ModelCshaCode Verif.ModelCsha Verif.ProofCshaF Verif.ProofCshaG Verif.ProofCshaW Verif.ProofCshaB.
Import ListNotations.
Open Scope Z_scope.

Lemma Kf25s : field_theory (fz 0) (fz 1) fp_add fp_mul fp_sub fp_opp fp_div fp_inv (@eq F25).
Proof. exact Kf25. Qed.
Add Field KF25s : Kf25s.

(** ** Multiples of the base point *)
Lemma mulB_on k : ed_on (ed_mul k ed_B). Proof. apply ed_mul_on, ed_B_on. Qed.
Lemma two_tors P : ed_on P -> fst P = fz 0 -> ed_add P P = ed_zero.
Proof.
  destruct P as [x y]. cbn [fst]. intros H ->. pose proof (g_inv _ _ _ _ _ ed_group _ H) as Z. transitivity (ed_add (fz 0, y) (ed_neg (fz 0, y))); [|exact Z]. f_equal.
Qed.
Lemma sub_x0 P : ed_on P -> ed_mul ed_L P = ed_zero -> P <> ed_zero -> fst P <> fz 0.
Proof.
  intros H HL N X. apply N. pose proof (two_tors P H X) as T.
  assert (E1 : ed_mul 2 P = ed_zero).
  { unfold ed_mul. replace 2 with (2 * 1) by reflexivity. rewrite (zmul_double _ _ _ _ _ ed_group _ _ H). now rewrite (zmul_1 _ _ _ _ _ ed_group _ H). }
  assert (E2 : ed_mul 1 P = ed_zero).
  { replace 1 with (ed_L + 2 * (- ((ed_L - 1) / 2))) by reflexivity. unfold ed_mul in *. rewrite (zmul_add _ _ _ _ _ ed_group _ _ _ H), HL.
    rewrite Z.mul_comm, (zmul_mul _ _ _ _ _ ed_group _ _ _ H), E1, (zmul_zero _ _ _ _ _ ed_group). apply (g_0_l _ _ _ _ _ ed_group), (g_zero _ _ _ _ _ ed_group). }
  unfold ed_mul in E2. now rewrite (zmul_1 _ _ _ _ _ ed_group _ H) in E2.
Qed.
Lemma sub_y P : ed_on P -> P <> ed_zero -> snd P <> fz 1.
Proof. intros H N E. apply N. now apply y_one_neutral. Qed.
Lemma x_ne_y P : ed_on P -> fst P <> fz 0 -> (fz 1 + snd P)%F <> fz 0.
Proof.
  destruct P as [x y]. cbn [fst snd]. intros H N E. apply N.
  assert (Y : y = (- fz 1)%F) by (transitivity (fz 1 + y - fz 1)%F; [ring|rewrite E; ring]). subst y.
  pose proof (on_g _ _ H) as G. destruct (fp_dec x (fz 0)) as [X|X]; [exact X|exfalso].
  assert (G2 : (x * x * (e6 + (ed_d * e6)) = fz 0)%F).
  { transitivity (e6 * (x * x * (fz 1 + ed_d * (- fz 1 * - fz 1))))%F; [ring|]. rewrite G. ring. }
  rewrite d_e in G2. assert (G3 : (x * x = fz 0)%F) by (rewrite <- G2; ring). apply fint in G3. destruct G3; contradiction.
Qed.
Lemma ord_B : ed_mul ed_L ed_B = ed_zero. Proof. exact ed_order. Qed.
Lemma mulB_L k : ed_mul ed_L (ed_mul k ed_B) = ed_zero.
Proof.
  unfold ed_mul. rewrite <- (zmul_mul _ _ _ _ _ ed_group _ _ _ ed_B_on), Z.mul_comm, (zmul_mul _ _ _ _ _ ed_group _ _ _ ed_B_on).
  pose proof ord_B as O. unfold ed_mul in O. rewrite O. apply (zmul_zero _ _ _ _ _ ed_group).
Qed.
Lemma mulB_ne k : k mod ed_L <> 0 -> ed_mul k ed_B <> ed_zero.
Proof. intros N E. apply N. exact (zmul_order _ _ _ _ _ ed_group ed_L k ed_B ed_B_on prime_L ord_B ed_B_ne E). Qed.
Lemma mulB_inj j k : ed_mul j ed_B = ed_mul k ed_B -> (j - k) mod ed_L = 0.
Proof.
  intros E. apply (zmul_order _ _ _ _ _ ed_group ed_L (j - k) ed_B ed_B_on prime_L ord_B ed_B_ne).
  rewrite (zmul_sub _ _ _ _ _ ed_group _ _ _ ed_B_on). unfold ed_mul in E. rewrite E. apply (g_inv _ _ _ _ _ ed_group). exact (mulB_on k).
Qed.
(** points with the same y *)
Lemma same_y P Q : ed_on P -> ed_on Q -> snd P = snd Q -> P = Q \/ P = ed_neg Q.
Proof.
  destruct P as [x1 y], Q as [x2 y2]. cbn [snd]. intros HP HQ <-. destruct (on_same_y x1 x2 y HP HQ) as [E|E].
  - left. now subst.
  - right. subst. reflexivity.
Qed.

(** ** Parity *)
Lemma p25_odd : p25 mod 2 = 1. Proof. reflexivity. Qed.
Lemma fval_opp (x : F25) : x <> fz 0 -> fval (- x)%F = p25 - fval x.
Proof.
  intros N. assert (B : 0 <= fval x < p25) by exact (fval25 x).
  assert (Z0 : fval x <> 0). { intros E. apply N. rewrite <- (fp_of_val _ x), E. reflexivity. }
  unfold fp_opp. rewrite fval_of. symmetry.
  apply (Z.mod_unique_pos _ _ (-1)); lia.
Qed.
Lemma odd_opp (x : F25) : x <> fz 0 -> (fval (- x)%F mod 2 =? 0) = negb (Z.even (fval x)).
Proof.
  intros N. rewrite fval_opp by exact N. rewrite Zeven_mod. unfold Zeq_bool.
  pose proof (Z.mod_pos_bound (fval x) 2 ltac:(lia)) as B. rewrite Zminus_mod, p25_odd.
  assert (C : fval x mod 2 = 0 \/ fval x mod 2 = 1) by lia. destruct C as [-> | ->]; reflexivity.
Qed.

(** ** Field helpers of the code *)
Lemma cr_xToY2 f u : cr f u -> cr (cs_xToY2 f) ((u * u + u * cA + fz 1) * u)%F.
Proof.
  intros H. unfold cs_xToY2. cbv zeta. pose proof (cr_cw _ _ H) as W.
  apply cr_mul; [|exact W]. apply (cr2_add0 _ _ 1); [|lia]. apply cr_add; [now apply cr_sqr|].
  apply (cr_small _ _ 486662 W). lia.
Qed.
Local Transparent wd.
Lemma base2y_wd : wd base2y.
Proof. unfold wd, csw, base2y, bd. repeat constructor; unfold inI; cbn [fst snd]; lia. Qed.
Lemma baseR2y_wd : wd baseR2y.
Proof. unfold wd, csw, baseR2y, bd. repeat constructor; unfold inI; cbn [fst snd]; lia. Qed.
Local Opaque wd.
Lemma inv_of (a b : F25) : (a * b = fz 1)%F -> b <> fz 0 -> a = fp_inv b.
Proof. intros E N. transitivity (a * b / b)%F; [field; exact N|]. rewrite E. unfold fp_div. ring. Qed.
Definition wBz : Z := 43114425171068552920764898935933967039370386198203806730763910166200978582548.
Local Transparent fev.
Lemma base2y_cw : cw base2y (two * fz wBz)%F.
Proof. split; [exact base2y_wd|]. rewrite <- fp_of_add, <- fp_of_mul. apply fp_of_eq. vm_compute. reflexivity. Qed.
Lemma baseR2y_cw : cw baseR2y (fp_inv (two * fz wBz)%F).
Proof.
  split; [exact baseR2y_wd|].
  assert (E : (fz (fev baseR2y) * (two * fz wBz) = fz 1)%F) by (rewrite <- fp_of_add, <- !fp_of_mul; apply fp_of_eq; vm_compute; reflexivity).
  assert (N : (two * fz wBz)%F <> fz 0) by (apply fp25_mul_ne; [exact two_ne0|apply fz_ne; vm_compute; discriminate]).
  exact (inv_of _ _ E N).
Qed.
Local Opaque fev.
Lemma wB_ne : fz wBz <> fz 0. Proof. apply fz_ne. vm_compute. discriminate. Qed.
Lemma wB_sq : (fz wBz * fz wBz = fz 39420360)%F.
Proof. rewrite <- fp_of_mul. apply fp_of_eq. vm_compute. reflexivity. Qed.
Local Transparent ed_B.
Lemma xB_c : (fz csz * fz 9 = fz wBz * fst ed_B)%F.
Proof. unfold ed_B. cbn [fst]. rewrite <- !fp_of_mul. apply fp_of_eq. vm_compute. reflexivity. Qed.
Lemma xB_ne : fst ed_B <> fz 0.
Proof. unfold ed_B. cbn [fst]. apply fz_ne. vm_compute. discriminate. Qed.
Local Opaque ed_B.
Lemma u_B : mont_u (snd ed_B) = fz 9.
Proof.
  unfold mont_u. pose proof (dl_ne _ B_ne1) as N. transitivity ((fz 1 + snd ed_B) / (fz 1 - snd ed_B))%F; [f_equal; ring|]. rewrite <- B_u. field. exact N.
Qed.
Lemma w_B : mw ed_B = fz wBz.
Proof. unfold mont_w. rewrite u_B, xB_c. field. exact xB_ne. Qed.
Lemma mont_u_inj y1 y2 : y1 <> fz 1 -> y2 <> fz 1 -> mont_u y1 = mont_u y2 -> y1 = y2.
Proof. intros N1 N2 E. now rewrite <- (mont_y_u y1 N1), <- (mont_y_u y2 N2), E. Qed.
Local Transparent cA.
Lemma cA_9 : fz (9 + 486662) = (fz 9 + cA)%F. Proof. unfold cA. rewrite <- fp_of_add. reflexivity. Qed.
Local Opaque cA.
(** the chord formula with the base point *)
Lemma chord_B P : ed_on P -> fst P <> fz 0 -> snd P <> fz 1 -> snd P <> snd ed_B ->
  let u := mont_u (snd P) in
  ((mont_u (snd (ed_add P ed_B)) + u + fz (9 + 486662)) * ((u + fz (-9)) * (u + fz (-9))) = (mw P - fz wBz) * (mw P - fz wBz))%F.
Proof.
  intros H X Y N. cbv zeta. pose proof ed_B_on as HB. pose proof xB_ne as XB. pose proof B_ne1 as YB. pose proof u_B as UB. pose proof w_B as WB.
  set (Bp := ed_B) in *. clearbody Bp. destruct P as [x1 y1], Bp as [x2 y2]. cbn [fst snd] in *.
  pose proof (mw_add _ _ _ _ H HB X XB Y YB N) as K. cbv zeta in K. rewrite UB, WB in K. rewrite <- K.
  assert (E1 : fz (9 + 486662) = (fz 9 + cA)%F) by exact cA_9.
  assert (E2 : fz (-9) = (- fz 9)%F) by (rewrite <- fp_of_opp; reflexivity).
  rewrite E1, E2. ring.
Qed.
Lemma w_ne P : ed_on P -> fst P <> fz 0 -> snd P <> fz 1 -> mw P <> fz 0.
Proof.
  intros H X Y E. unfold mont_w, mont_u in E. pose proof (dl_ne _ Y) as D. pose proof (x_ne_y P H X) as N.
  assert (C : fz csz <> fz 0) by (apply fz_ne; vm_compute; discriminate).
  assert (Z : (fz csz * (fz 1 + snd P) = fz 0)%F).
  { transitivity ((fz csz * ((snd P + fz 1) / (fz 1 - snd P)) / fst P) * fst P * (fz 1 - snd P))%F; [field; auto|]. rewrite E. ring. }
  apply fint in Z. destruct Z; contradiction.
Qed.

(** ** The sign decision of core *)
Definition s_test (lad : xz * xz) : Z :=
  let dx := cs_core_x lad in
  let t1 := cs_xToY2 dx in
  let t2 := cs_add0 (cs_add (cs_mul (fst (snd lad)) (cs_recip (snd (snd lad)))) dx) (9 + 486662) in
  let t3 := cs_sqr (cs_add0 dx (-9)) in
  cs_isNegative (cs_mul (cs_add0 (cs_sub (cs_mul t2 t3) t1) (-39420360)) baseR2y).
Lemma s_test_ok k s : lad k s -> k mod ed_L <> 0 -> (k - 1) mod ed_L <> 0 -> (k + 1) mod ed_L <> 0 ->
  (s_test s =? 0) = negb (Z.even (fval (mw (ed_mul k ed_B)))).
Proof.
  intros [L0 L1] N0 N1 N2. set (P := ed_mul k ed_B) in *.
  pose proof (mulB_on k) as HP. fold P in HP. pose proof (mulB_ne k N0) as PZ. fold P in PZ. pose proof (mulB_L k) as PL. fold P in PL.
  pose proof (sub_x0 P HP PL PZ) as X. pose proof (sub_y P HP PZ) as Y.
  assert (NB : snd P <> snd ed_B).
  { intros E. destruct (same_y P ed_B HP ed_B_on E) as [Z|Z].
    - apply N1. apply mulB_inj. unfold ed_mul at 2. rewrite (zmul_1 _ _ _ _ _ ed_group _ ed_B_on). exact Z.
    - apply N2. replace (k + 1) with (k - (Z.opp 1)) by lia. apply mulB_inj. unfold ed_mul at 2. rewrite (zmul_neg _ _ _ _ _ ed_group _ _ ed_B_on), (zmul_1 _ _ _ _ _ ed_group _ ed_B_on). exact Z. }
  assert (P1 : ed_mul (k + 1) ed_B = ed_add P ed_B).
  { unfold P. rewrite <- mul_add. unfold ed_mul at 2. rewrite (zmul_1 _ _ _ _ _ ed_group _ ed_B_on). reflexivity. }
  rewrite P1 in L1. unfold s_test. cbv zeta. destruct s as [s0 s1]. cbn [fst snd] in *. unfold cs_core_x.
  pose proof (mrep_u _ _ L0) as U0. pose proof (mrep_u _ _ L1) as U1. set (u := mont_u (snd P)) in *. set (u3 := mont_u (snd (ed_add P ed_B))) in *.
  pose proof (cr_xToY2 _ _ U0) as T1.
  pose proof (cr2_add0 _ _ (9 + 486662) (cr_add _ _ _ _ U1 U0) ltac:(lia)) as T2.
  pose proof (cr_sqr _ _ (cr2_cw _ _ (cr_add0 _ _ (-9) U0 ltac:(lia)))) as T3.
  pose proof (cr_mul _ _ _ _ T2 (cr_cw _ _ T3)) as T4.
  pose proof (cr2_add0 _ _ (-39420360) (cr_sub _ _ _ _ T4 T1) ltac:(lia)) as T5.
  pose proof (cr_mul _ _ _ _ T5 baseR2y_cw) as T6. rewrite (cr_neg _ _ T6). clear T1 T2 T3 T4 T5 T6.
  pose proof (chord_B P HP X Y NB) as CB. cbv zeta in CB. fold u u3 in CB. rewrite CB.
  assert (SQ : ((u * u + u * cA + fz 1) * u = mw P * mw P)%F).
  { unfold u. destruct P as [x y]. cbn [fst snd] in *. symmetry. exact (mw_sq x y HP X Y). }
  rewrite SQ. assert (E : fz (-39420360) = (- (fz wBz * fz wBz))%F) by (rewrite wB_sq, <- fp_of_opp; reflexivity). rewrite E.
  assert (V : (((mw P - fz wBz) * (mw P - fz wBz) - mw P * mw P + - (fz wBz * fz wBz)) * fp_inv (two * fz wBz) = - mw P)%F).
  { pose proof wB_ne as WN. pose proof two_ne0 as TN. field. auto. }
  rewrite V. apply odd_opp. now apply w_ne.
Qed.

(** ** Arithmetic modulo the order *)
Lemma order_val : le2z cs_order = ed_L. Proof. vm_compute. reflexivity. Qed.
Lemma order8_val : le2z cs_orderTimes8 = 8 * ed_L. Proof. vm_compute. reflexivity. Qed.
Lemma order_ok : bytes_ok cs_order. Proof. repeat constructor; unfold byte_ok; lia. Qed.
Lemma order8_ok : bytes_ok cs_orderTimes8. Proof. repeat constructor; unfold byte_ok; lia. Qed.
Lemma order_len : length cs_order = 32%nat. Proof. reflexivity. Qed.
Lemma order8_len : length cs_orderTimes8 = 32%nat. Proof. reflexivity. Qed.
Lemma order_sized : sized cs_order 32.
Proof.
  split; [exact order_ok|]. split; [rewrite order_len; lia|]. rewrite order_val. split; [reflexivity|right; discriminate].
Qed.
Lemma L_facts : 1 < ed_L /\ 8 * ed_L < bb 32 /\ 2 * ed_L < 128 * bb 31 /\ 2 * ed_L * ed_L < bb 64 /\ ed_L < bb 32.
Proof. repeat split. Qed.
Lemma L8 : 2 ^ 255 < 8 * ed_L. Proof. reflexivity. Qed.
Global Opaque cs_order cs_orderTimes8 ed_L.
Lemma bb32 : bb 32 = 256 * bb 31. Proof. exact (bb_S 31). Qed.
Lemma order_mod x q b : bytes_ok x -> length x = 32%nat -> divmod (repeat 0 32) x 32 cs_order 32 = (q, b) ->
  bytes_ok b /\ length b = 32%nat /\ le2z b = le2z x mod ed_L.
Proof.
  intros O L E. pose proof (val_lt x O) as V. rewrite L in V.
  destruct (divmod_sized _ x 32 cs_order 32 q b order_sized ltac:(lia) O ltac:(lia) ltac:(lia) ltac:(lia) (ok_repeat 32) ltac:(rewrite repeat_length; lia) E) as (_ & _ & _ & B1 & B2 & B3).
  rewrite order_val in B3. rewrite B1. auto.
Qed.
Lemma mulaSmall32 p q x z r c : length p = 32%nat -> length q = 32%nat -> length x = 32%nat -> mulaSmall p q 0 x 32 z = (r, c) ->
  length r = 32%nat /\ bytes_ok r /\ le2z r = (le2z q + z * le2z x) mod bb 32.
Proof.
  intros Lp Lq Lx E. unfold mulaSmall in E. cbn [skipn] in E.
  assert (F : forall l : bytes, length l = 32%nat -> firstn 32 l = l) by (intros l <-; apply firstn_all).
  rewrite (F q Lq), (F x Lx) in E. destruct (mula_seg q x z 0) as [r' c'] eqn:ES.
  destruct (seg_ok q x z 0 r' c' ltac:(lia) ES) as (L & O & V).
  assert (ER : r = r').
  { assert (X : firstn 0 p ++ r' ++ skipn (0 + 32) p = r) by congruence. rewrite <- X. cbn [firstn app]. rewrite (skipn_all2 p) by lia. apply app_nil_r. }
  subst r'. split; [lia|]. split; [exact O|]. pose proof (val_lt r O) as B. rewrite L, Lq in B. rewrite Lq in V.
    rewrite <- (Z.mod_small (le2z r) (bb 32)) by exact B. replace (le2z q + z * le2z x) with (le2z r + c' * bb 32) by lia. symmetry. apply Z.mod_add. pose proof (bb_pos 32). lia.
Qed.
Lemma val_z2le (l : bytes) : bytes_ok l -> length l = 32%nat -> l = z2le 32 (le2z l).
Proof. intros O L. rewrite <- L at 1. symmetry. now apply z2le_le2z. Qed.
Lemma coprime_L a : a mod ed_L <> 0 -> Z.gcd a ed_L = 1.
Proof.
  intros N. apply Zgcd_1_rel_prime, rel_prime_sym, prime_rel_prime; [exact prime_L|]. intros D. apply N. now apply Zdivide_mod.
Qed.
(** the inverse computed by core from a *)
Definition s_of (a : bytes) : option bytes :=
  match egcd32 a cs_order with
  | None => None
  | Some e =>
      let s := firstn 32 e in
      Some (if negb (Z.land (nth 31 s 0) 0x80 =? 0) then fst (mulaSmall s s 0 cs_order 32 1) else s)
  end.
Lemma land128 b : 0 <= b < 256 -> (Z.land b 0x80 =? 0) = (b <? 128).
Proof.
  intros H. assert (F : forallb (fun n => Bool.eqb (Z.land (Z.of_nat n) 0x80 =? 0) (Z.of_nat n <? 128)) (seq 0 256) = true) by reflexivity.
  rewrite forallb_forall in F. specialize (F (Z.to_nat b)). rewrite Z2Nat.id in F by lia. apply eqb_prop, F, in_seq. lia.
Qed.
Lemma one_mod : 1 mod ed_L = 1. Proof. apply Z.mod_small. pose proof L_facts. lia. Qed.
Lemma top_byte l : bytes_ok l -> length l = 32%nat -> nth 31 l 0 = le2z l / bb 31.
Proof.
  intros O L. rewrite (nth_le2z l 31 O). fold (bb 31). pose proof (val_lt l O) as V. rewrite L, bb32 in V. pose proof (bb_pos 31). apply Z.mod_small.
  split; [apply Z.div_pos; lia|apply Z.div_lt_upper_bound; lia].
Qed.
Lemma s_of_ok a : bytes_ok a -> length a = 32%nat -> le2z a mod ed_L <> 0 ->
  exists S, s_of a = Some (z2le 32 S) /\ 0 < S < ed_L /\ (S * le2z a) mod ed_L = 1.
Proof.
  intros O L N. pose proof (proj1 (val_lt a O)) as A0. assert (A1 : 0 < le2z a). { destruct (Z.eq_dec (le2z a) 0) as [E|E]; [|lia]. rewrite E in N. now rewrite Z.mod_0_l in N by (pose proof L_facts; lia). }
  destruct L_facts as (F1 & F2 & F3 & F4 & F6).
  destruct (egcd32_ok (le2z a) ed_L ltac:(lia) (coprime_L _ N) a cs_order O L order_ok order_len eq_refl order_val A1) as (r & R & E & (Or & Lr & Vr) & IR & BR).
  unfold s_of. rewrite E. cbv zeta. rewrite one_mod in IR.
  assert (Of : bytes_ok (firstn 32 r)) by now apply ok_firstn. assert (Lf : length (firstn 32 r) = 32%nat) by (rewrite firstn_length; lia).
  assert (Vf : le2z (firstn 32 r) = R mod bb 32) by (rewrite val_firstn by (assumption || lia); exact Vr).
  set (f := firstn 32 r) in *. clearbody f. clear E Vr Or Lr r.
  assert (RL : R <> ed_L /\ R <> - ed_L /\ R <> 0).
  { assert (Z0 : 0 mod ed_L = 0) by (apply Z.mod_0_l; lia). repeat split; intros ->; revert IR.
    - rewrite Z.mul_comm, Z.mod_mul by lia. lia.
    - replace (- ed_L * le2z a) with ((- le2z a) * ed_L) by ring. rewrite Z.mod_mul by lia. lia.
    - rewrite Z.mul_0_l, Z0. lia. }
  rewrite land128 by (apply nth_ok; exact Of). rewrite (top_byte f Of Lf), Vf. pose proof bb32 as B32. pose proof (bb_pos 31) as P31.
  destruct (Z_lt_le_dec R 0) as [Neg|Pos].
  - assert (EM : R mod bb 32 = bb 32 + R). { symmetry. apply (Z.mod_unique_pos _ _ (-1)); lia. }
    rewrite EM. destruct (Z.ltb_spec ((bb 32 + R) / bb 31) 128) as [C|C].
    + exfalso. assert (128 <= (bb 32 + R) / bb 31) by (apply Z.div_le_lower_bound; lia). lia.
    + cbn [negb]. destruct (mulaSmall f f 0 cs_order 32 1) as [g c] eqn:EG.
      destruct (mulaSmall32 f f cs_order 1 g c Lf Lf order_len EG) as (Lg & Og & Vg). cbn [fst]. exists (R + ed_L). split.
      * rewrite (val_z2le g Og Lg), Vg, order_val, Vf, EM. do 2 f_equal. symmetry. apply (Z.mod_unique_pos _ _ 1); lia.
      * split; [lia|]. rewrite <- IR. replace ((R + ed_L) * le2z a) with (R * le2z a + le2z a * ed_L) by ring. apply Z.mod_add. lia.
  - assert (EM : R mod bb 32 = R) by (apply Z.mod_small; lia). rewrite EM.
    destruct (Z.ltb_spec (R / bb 31) 128) as [C|C].
    + cbn [negb]. exists R. split; [|split; [lia|exact IR]]. rewrite (val_z2le f Of Lf), Vf, EM. reflexivity.
    + exfalso. assert (R / bb 31 < 128) by (apply Z.div_lt_upper_bound; lia). lia.
Qed.
Lemma core_s_ok k s : bytes_ok k -> length k = 32%nat -> le2z k < 8 * ed_L -> lad (le2z k) s ->
  le2z k mod ed_L <> 0 -> (le2z k - 1) mod ed_L <> 0 -> (le2z k + 1) mod ed_L <> 0 ->
  exists S, cs_core_s k s = Some (z2le 32 S) /\ csha_inverse S (csha_e (le2z k)).
Proof.
  intros O L K8 HL N0 N1 N2. pose proof (s_test_ok _ _ HL N0 N1 N2) as T. unfold csha_e, csha_inverse.
  assert (E : cs_core_s k s = s_of (if negb (s_test s =? 0) then k else fst (mulaSmall (repeat 0 32) cs_orderTimes8 0 k 32 (-1)))) by (destruct s; reflexivity).
  rewrite E, T. clear E T. destruct (Z.even (fval (mw (ed_mul (le2z k) ed_B)))); cbn [negb].
  - destruct (s_of_ok k O L N0) as (S & ES & BS & IS). exists S. split; [exact ES|]. split; [lia|exact IS].
  - destruct (mulaSmall (repeat 0 32) cs_orderTimes8 0 k 32 (-1)) as [a c] eqn:EA. cbn [fst].
    destruct (mulaSmall32 _ _ _ _ a c (repeat_length 0 32) order8_len L EA) as (La & Oa & Va).
    pose proof (proj1 (val_lt k O)) as K0. destruct L_facts as (F1 & F2 & _).
    assert (VA : le2z a = 8 * ed_L - le2z k). { rewrite Va, order8_val. rewrite Z.mod_small by lia. lia. }
    assert (NA : le2z a mod ed_L <> 0).
    { rewrite VA. intros Z. apply N0. replace (le2z k) with (8 * ed_L - (8 * ed_L - le2z k)) by lia. rewrite Zminus_mod, Z, Z.mod_mul, Z.sub_0_r by lia. apply Z.mod_0_l. lia. }
    destruct (s_of_ok a Oa La NA) as (S & ES & BS & IS). exists S. split; [exact ES|]. split; [lia|].
    rewrite <- IS, VA. replace (S * (8 * ed_L - le2z k)) with (S * - le2z k + (8 * S) * ed_L) by ring. symmetry. apply Z.mod_add. lia.
Qed.

(** ** Sign *)
Lemma sign_v h x S : bytes_ok h -> length h = 32%nat -> bytes_ok x -> length x = 32%nat -> 0 <= S < ed_L ->
  cs_Sign h x (z2le 32 S) = z2le 32 (((le2z x - le2z h) * S) mod ed_L).
Proof.
  intros Oh Lh Ox Lx HS. destruct L_facts as (F1 & F2 & F3 & F4 & F6). unfold cs_Sign.
  destruct (divmod (repeat 0 32) h 32 cs_order 32) as [q1 h1] eqn:E1. destruct (order_mod h q1 h1 Oh Lh E1) as (Oh1 & Lh1 & Vh1).
  destruct (divmod (repeat 0 32) x 32 cs_order 32) as [q2 x1] eqn:E2. destruct (order_mod x q2 x1 Ox Lx E2) as (Ox1 & Lx1 & Vx1).
  destruct (mulaSmall (repeat 0 32) x1 0 h1 32 (-1)) as [v c] eqn:E3. destruct (mulaSmall32 _ _ _ _ v c (repeat_length 0 32) Lx1 Lh1 E3) as (Lv & Ov & Vv).
  destruct (mulaSmall v v 0 cs_order 32 1) as [v2 c2] eqn:E4. destruct (mulaSmall32 _ _ _ _ v2 c2 Lv Lv order_len E4) as (Lv2 & Ov2 & Vv2).
  cbv zeta.
  pose proof (Z.mod_pos_bound (le2z h) ed_L ltac:(lia)) as Bh. pose proof (Z.mod_pos_bound (le2z x) ed_L ltac:(lia)) as Bx.
  assert (VV : le2z v2 = le2z x mod ed_L - le2z h mod ed_L + ed_L).
  { rewrite Vv2, Vv, order_val, Zplus_mod_idemp_l, Vx1, Vh1. rewrite Z.mod_small by lia. lia. }
  assert (VS : le2z (z2le 32 S) = S) by (rewrite le2z_z2le; apply Z.mod_small; fold (bb 32); lia).
  destruct (mula32_ok (repeat 0 64) v2 (z2le 32 S) 32 1 ltac:(lia) (ok_repeat 64) ltac:(rewrite repeat_length; lia) ltac:(rewrite z2le_length; lia)) as (k & Lt & Ot & Vt).
  set (t := mula32 (repeat 0 64) v2 (z2le 32 S) 32 1) in *. clearbody t. rewrite repeat_length in Lt.
  assert (FV : firstn 32 v2 = v2) by (rewrite <- Lv2 at 1; apply firstn_all).
  assert (FS : firstn 32 (z2le 32 S) = z2le 32 S) by (rewrite <- (z2le_length 32 S) at 1; apply firstn_all).
  rewrite FV, FS, VS, VV, val_repeat in Vt. change (32 + 32)%nat with 64%nat in Vt.
  set (d := le2z x mod ed_L - le2z h mod ed_L + ed_L) in *. assert (Bd : 0 < d < 2 * ed_L) by lia.
  pose proof (val_lt t Ot) as Bt. rewrite Lt in Bt.
  assert (PB : 0 <= d * S < bb 64). { split; [apply Z.mul_nonneg_nonneg; lia|]. apply Z.le_lt_trans with (2 * ed_L * ed_L); [apply Z.mul_le_mono_nonneg; lia|exact F4]. }
  assert (VT : le2z t = d * S).
  { rewrite <- (Z.mod_small (le2z t) (bb 64)) by exact Bt. rewrite <- (Z.mod_small (d * S) (bb 64)) by exact PB.
    rewrite Vt. replace (0 + 1 * d * S + bb 64 * k) with (d * S + k * bb 64) by ring. apply Z.mod_add. lia. }
  destruct (divmod (repeat 0 64) t 64 cs_order 32) as [q3 w] eqn:E5.
  destruct (divmod_sized _ t 64 cs_order 32 q3 w order_sized ltac:(lia) Ot ltac:(lia) ltac:(lia) ltac:(lia) (ok_repeat 64) ltac:(rewrite repeat_length; lia) E5) as (_ & _ & _ & Lw & Ow & Vw).
  rewrite order_val, VT in Vw. pose proof (Z.mod_pos_bound (d * S) ed_L ltac:(lia)) as Bw.
  rewrite (val_z2le (firstn 32 w)) by (first [apply ok_firstn; exact Ow | rewrite firstn_length, Lw, Lt; reflexivity]).
  rewrite val_firstn by (exact Ow || (rewrite Lw, Lt; apply Nat.leb_le; reflexivity)). rewrite Vw. f_equal. rewrite Z.mod_small by exact (conj (proj1 Bw) (Z.lt_trans _ _ _ (proj2 Bw) F6)). unfold d.
  rewrite Zmult_mod. rewrite (Zmult_mod (le2z x - le2z h)). f_equal. f_equal.
  replace (le2z x mod ed_L - le2z h mod ed_L + ed_L) with (le2z x mod ed_L - le2z h mod ed_L + 1 * ed_L) by lia. rewrite Z.mod_add by lia. symmetry. apply Zminus_mod.
Qed.

(** ** Canonical first half *)
Lemma canonical_sig_ok v : bytes_ok (firstn 32 v) -> (32 <= length v)%nat -> cs_canonical_sig v = true <-> le2z (firstn 32 v) < ed_L.
Proof.
  intros O L. assert (Lf : length (firstn 32 v) = 32%nat) by (rewrite firstn_length; lia). unfold cs_canonical_sig.
  set (f := firstn 32 v) in *. clearbody f. destruct (divmod (repeat 0 32) f 32 cs_order 32) as [q b] eqn:E.
  destruct (order_mod f q b O Lf E) as (Ob & Lb & Vb). pose proof L_facts as (F1 & _). pose proof (Z.mod_pos_bound (le2z f) ed_L ltac:(lia)) as B.
  destruct (list_eq_dec Z.eq_dec f b) as [X|X]; split; intros Y; try discriminate; try reflexivity.
  - rewrite X, Vb. lia.
  - exfalso. apply X. rewrite (val_z2le f O Lf), (val_z2le b Ob Lb), Vb, Z.mod_small; [reflexivity|]. pose proof (proj1 (val_lt f O)). lia.
Qed.
