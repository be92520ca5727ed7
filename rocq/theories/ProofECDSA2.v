(** Point compression and public-key recovery. *)
Require Import ZArith List Lia Znumtheory Bool.
Require Import Verif.Base Verif.Fp Verif.Weier Verif.Group Verif.EC Verif.SpecECDSA
  Verif.ModelK1 Verif.ModelECDSA Verif.ProofECDSA.
Import ListNotations.
Open Scope Z_scope.

Lemma firstn_app_len {A} (a b : list A) n : length a = n -> firstn n (a ++ b) = a.
Proof. intros <-. rewrite firstn_app, Nat.sub_diag, firstn_all. cbn [firstn]. apply app_nil_r. Qed.
Lemma skipn_app_len {A} (a b : list A) n : length a = n -> skipn n (a ++ b) = b.
Proof. intros <-. rewrite skipn_app, Nat.sub_diag, skipn_all. reflexivity. Qed.

Lemma mod_gap p n x r : 0 < n -> 0 <= x < p -> p - n < 2 ^ 247 -> r = x mod n -> 2 ^ 247 <= r -> x = r.
Proof.
  intros Hn Hx Hg Hr Hl. pose proof (Z.div_mod x n ltac:(lia)) as Hdm. rewrite <- Hr in Hdm. clear Hr.
  assert (H0 : 0 <= x / n) by (apply Z.div_pos; lia).
  destruct (Z.eq_dec (x / n) 0) as [E|E]; [rewrite E in Hdm; lia|].
  set (q := x / n) in *. clearbody q. generalize dependent (2 ^ 247). intros. nia.
Qed.

Lemma opp_mod_sub p y : 0 < y < p -> (- y) mod p = p - y.
Proof. intros H. rewrite Z.mod_opp_l_nz; rewrite ?(Z.mod_small y p); lia. Qed.

Lemma nth64 r s v : nth 64 (z2be 32 r ++ z2be 32 s ++ [v]) 0 = v.
Proof.
  rewrite app_nth2; rewrite z2be_length; [|lia].
  rewrite app_nth2; rewrite z2be_length; [|lia]. reflexivity.
Qed.
Lemma z2be_small z : 0 <= z < 2 ^ 255 -> be2z (z2be 32 z) = z.
Proof.
  intros H. rewrite be2z_z2be, pow256_32. apply Z.mod_small.
  assert (2 ^ 255 < 2 ^ 256) by reflexivity. lia.
Qed.

Lemma decompress_len P x3b t xs q : ec_decompress P x3b (t :: xs) = Some q ->
  (length xs <= length (skipn 1 q))%nat.
Proof.
  unfold ec_decompress. destruct (_ || _); [discriminate|].
  set (y := match mod_sqrt34 _ _ with Some y => y | None => 0 end). clearbody y.
  set (yb := if t =? 2 then 0 else 1). clearbody yb.
  set (y' := if y mod 2 =? yb then y else P - y). clearbody y'.
  destruct (y' mod 2 =? yb); [|discriminate]. intros [= <-]. cbn [skipn]. rewrite app_length. lia.
Qed.

Section Recover.
Variable E : ecurve.
Variable c : wcurve.
Hypothesis HE : implements E c.
Variable x3b : Z -> Z.
Hypothesis Hx3b : forall x, x3b x mod w_p c = (x * x * x + w_a c * x + w_b c) mod w_p c.

Let Hv := im_valid E c HE.
Let Hb := im_b E c HE.
Let n := w_n c.
Let p := w_p c.
Let G := w_G c.

Lemma p_prime : prime p. Proof. exact (wv_prime c (wv_field c Hv)). Qed.

Lemma z2be_px P : be2z (z2be 32 (px c P)) = px c P.
Proof using HE.
  rewrite be2z_z2be, pow256_32. apply Z.mod_small.
  pose proof (px_bound c Hv P) as H1. pose proof (p_size E c HE) as H2. clear - H1 H2. lia.
Qed.
Lemma z2be_py P : be2z (z2be 32 (py c P)) = py c P.
Proof using HE.
  rewrite be2z_z2be, pow256_32. apply Z.mod_small.
  pose proof (py_bound c Hv P) as H1. pose proof (p_size E c HE) as H2. clear - H1 H2. lia.
Qed.

Theorem decompress_ok P : w_on c P -> P <> pinf c ->
  ec_decompress p x3b (compressed_bytes c P) = Some (4 :: point_bytes c P).
Proof.
  intros HP HN. pose proof (p_size E c HE) as Hps. pose proof (im_34 E c HE) as H4.
  pose proof (px_bound c Hv P) as Hx. pose proof (py_bound c Hv P) as Hy. fold p in Hps, H4, Hx, Hy.
  unfold ec_decompress, compressed_bytes.
  assert (Hpar : py c P mod 2 = 0 \/ py c P mod 2 = 1)
    by (pose proof (Z.mod_pos_bound (py c P) 2 eq_refl); clear - H; lia).
  replace (Nat.eqb (length ((2 + py c P mod 2) :: z2be 32 (px c P))) 33) with true
    by (cbn [length]; rewrite z2be_length; reflexivity).
  replace (negb true || (negb (2 + py c P mod 2 =? 2) && negb (2 + py c P mod 2 =? 3))) with false
    by (destruct Hpar as [-> | ->]; reflexivity).
  replace (if 2 + py c P mod 2 =? 2 then 0 else 1) with (py c P mod 2)
    by (destruct Hpar as [-> | ->]; reflexivity).
  rewrite z2be_px.
  assert (Hon : (py c P * py c P) mod p = x3b (px c P) mod p).
  { rewrite <- (paff_pxy c P HN) in HP. apply paff_on_iff in HP. rewrite Hx3b. exact HP. }
  destruct (mod_sqrt34_complete (x3b (px c P) mod p) p (py c P) p_prime H4) as [y0 Hy0].
  { rewrite Zmod_mod. exact Hon. }
  fold p. rewrite Hy0.
  destruct (mod_sqrt34_some (x3b (px c P) mod p) p y0) as [By Ey]; [clear - Hps; lia|exact Hy0|].
  rewrite Zmod_mod, Hx3b in Ey.
  assert (HQ : w_on c (paff c (px c P) y0)) by (apply paff_on_iff; exact Ey).
  assert (Bx' : 0 <= px c P < w_p c) by exact Hx.
  assert (By' : 0 <= y0 < w_p c) by exact By.
  assert (Hp0 : w_p c <> 0) by (clear - By'; lia).
  assert (Hopp : y0 <> 0 -> (- y0) mod w_p c = w_p c - y0).
  { intros E0. rewrite Z.mod_opp_l_nz; rewrite ?(Z.mod_small y0 (w_p c) By'); auto. }
  assert (HS : py c P = y0 \/ (y0 <> 0 /\ py c P = p - y0)).
  { destruct (same_x c Hv P (paff c (px c P) y0) HP HQ HN) as [Q|Q].
    - discriminate.
    - rewrite px_paff. symmetry. apply Z.mod_small. exact Bx'.
    - left. rewrite Q at 1. rewrite py_paff. apply Z.mod_small. exact By'.
    - destruct (Z.eq_dec y0 0) as [E0|E0].
      + left. rewrite Q at 1. rewrite py_neg, py_paff, E0. rewrite Zmod_0_l. reflexivity.
      + right. split; [exact E0|]. rewrite Q at 1. rewrite py_neg, py_paff.
        rewrite (Z.mod_small y0 (w_p c) By'). apply Hopp. exact E0. }
  assert (Py : 0 <= py c P < 2 ^ 256) by (clear - Hy Hps; lia).
  unfold point_bytes.
  destruct HS as [HS|[HS0 HS]].
  - rewrite <- HS, !Z.eqb_refl. rewrite pad32_big_bytes by exact Py. reflexivity.
  - replace (y0 mod 2 =? py c P mod 2) with false.
    + rewrite <- HS, Z.eqb_refl. rewrite pad32_big_bytes by exact Py. reflexivity.
    + symmetry. apply Z.eqb_neq. rewrite HS. clear - H4. lia.
Qed.

(** One attempt of the recovery loop, for a decompressed multiple of G. *)
Lemma recover_try_spec tag z rinv sig msg j : 0 <= z -> 0 <= rinv ->
  bytes_ok msg -> be2z msg mod n <> 0 -> j mod n <> 0 ->
  tag :: firstn 32 sig = compressed_bytes c (w_mul c j G) ->
  let Q := w_mul c (rinv * (z * j - be2z msg)) G in
  recover_try E (ec_decompress p x3b) tag z rinv sig msg =
    if verify_ecdsa E (px c Q) (py c Q) msg (be2z (firstn 32 sig)) (be2z (firstn 32 (skipn 32 sig)))
    then Ret (Some (point_bytes c Q)) else Ret None.
Proof.
  intros Hz Hr Hm Hmn Hj Htag Q. unfold recover_try. rewrite Htag.
  assert (GO := G_on c Hv). fold G in GO.
  assert (HJ : w_mul c j G <> pinf c) by (intros E0; apply Hj, (mulG_inf c Hv); exact E0).
  rewrite decompress_ok by (auto; apply mul_on; auto).
  set (pb := point_bytes c (w_mul c j G)).
  change (skipn 1 (4 :: pb)) with pb. change (skipn 33 (4 :: pb)) with (skipn 32 pb).
  unfold pb, point_bytes at 1 2.
  rewrite firstn_app_len by apply z2be_length.
  rewrite skipn_app_len by apply z2be_length.
  rewrite z2be_px, z2be_py, Z.abs_eq by exact Hz.
  rewrite (point_mul_z E c HE) by (auto; apply mul_on; auto).
  rewrite (im_base E c HE) by exact Hm. fold G.
  rewrite (im_P E c HE). fold p.
  assert (Hpy : p - py c (w_mul c (be2z msg) G) = py c (w_neg c (w_mul c (be2z msg) G))).
  { rewrite py_neg. assert (Hn : w_mul c (be2z msg) G = w_mul c (be2z msg mod n) G)
      by (symmetry; apply (mulG_mod c Hv)).
    pose proof (n_size E c HE) as Hns. fold n in Hns.
    assert (Hne : py c (w_mul c (be2z msg) G) <> 0).
    { rewrite Hn. apply (mulG_py_ne E c HE). fold n.
      pose proof (Z.mod_pos_bound (be2z msg) n). lia. }
    pose proof (py_bound c Hv (w_mul c (be2z msg) G)) as Hy. fold p in Hy. fold p.
    symmetry. apply opp_mod_sub. clear - Hy Hne. lia. }
  rewrite Hpy, <- (px_neg c (w_mul c (be2z msg) G)).
  rewrite (im_add E c HE) by (try apply neg_on; repeat apply mul_on; auto).
  rewrite (point_mul_z E c HE) by (auto; apply add_on; auto; try apply neg_on; repeat apply mul_on; auto).
  assert (EQ : w_mul c rinv (w_add c (w_mul c z (w_mul c j G)) (w_neg c (w_mul c (be2z msg) G))) = Q).
  { unfold G. rewrite (mulG_mul c Hv), (mulG_neg c Hv), (mulG_add c Hv), (mulG_mul c Hv).
    unfold Q, G. f_equal; ring. }
  rewrite EQ. rewrite (marshal_pxy E c HE). reflexivity.
Qed.

(** Recovery from a signature produced by the signing loop. *)
Theorem recover_good d r s v msg : 0 < d < n ->
  bytes_ok msg -> length msg = 32%nat -> be2z msg mod n <> 0 ->
  good_sig c d (be2z msg) r s v ->
  recover_public E (ec_decompress p x3b) (z2be 32 r ++ z2be 32 s ++ [v]) msg =
    Ret (Some (point_bytes c (w_mul c d G))).
Proof.
  intros Hd Hm Hl Hmn Hg. pose proof Hg as (k & Hk & Er & Ev & Es & Br & Bs & Bs2). cbn zeta in *.
  fold n in Hk, Er, Es, Bs2. fold G in Er, Ev.
  pose proof (n_size E c HE) as Hns. fold n in Hns.
  pose proof (n_prime E c HE) as Hnp. fold n in Hnp.
  assert (GO := G_on c Hv). fold G in GO.
  set (R := w_mul c k G) in *.
  (* the x-coordinate of R is r itself *)
  assert (Exr : px c R = r).
  { pose proof (px_bound c Hv R) as Hpx. pose proof (im_gap E c HE) as Hgap. fold n in Hgap.
    apply (mod_gap (w_p c) n); try assumption; [clear - Hns; lia|clear - Hgap; lia|apply Br]. }
  set (sig := z2be 32 r ++ z2be 32 s ++ [v]).
  assert (Hv01 : v = 0 \/ v = 1) by (rewrite Ev; clear; pose proof (Z.mod_pos_bound (py c R) 2 eq_refl) as H; generalize dependent (py c R mod 2); intros; lia).
  assert (L65 : length sig = 65%nat) by (unfold sig; rewrite !app_length, !z2be_length; reflexivity).
  assert (F1 : firstn 32 sig = z2be 32 r) by (apply firstn_app_len, z2be_length).
  assert (F2 : skipn 32 sig = z2be 32 s ++ [v]) by (apply skipn_app_len, z2be_length).
  assert (F3 : nth 64 sig 0 = v) by apply nth64.
  assert (B247 : 0 < 2 ^ 247) by reflexivity.
  assert (Zr : be2z (z2be 32 r) = r) by (apply z2be_small; clear - Br B247; lia).
  assert (Zs : be2z (z2be 32 s) = s) by (apply z2be_small; clear - Bs B247; lia).
  assert (Hn0 : 0 < n) by (clear - Hns; lia).
  unfold recover_public. rewrite L65, Hl. cbn [Nat.eqb negb orb].
  rewrite (im_N E c HE). fold n. rewrite F3, F1, F2.
  rewrite (firstn_app_len (z2be 32 s)) by apply z2be_length. rewrite Zr, Zs.
  assert (Hr0 : r mod n <> 0).
  { rewrite Er, Zmod_mod, <- Er. clear - Br B247. lia. }
  destruct (mod_inverse_prime r n Hnp Hr0) as [rinv Hri]. rewrite Hri.
  destruct (mod_inverse_some r n rinv) as [Bri Eri]; [clear - Hns; lia|exact Hri|].
  assert (Htry : forall tag z j, 0 <= z -> j mod n <> 0 ->
    tag :: z2be 32 r = compressed_bytes c (w_mul c j G) ->
    recover_try E (ec_decompress p x3b) tag z rinv sig msg =
      let Q := w_mul c (rinv * (z * j - be2z msg)) G in
      if verify_ecdsa E (px c Q) (py c Q) msg r s then Ret (Some (point_bytes c Q)) else Ret None).
  { intros tag z j Hz Hj Ht.
    pose proof (recover_try_spec tag z rinv sig msg j Hz (proj1 Bri) Hm Hmn Hj) as H.
    rewrite F1, F2, (firstn_app_len (z2be 32 s)), Zr, Zs in H by apply z2be_length.
    apply H. exact Ht. }
  (* the negated nonce point *)
  assert (Hk0 : k mod n <> 0) by (rewrite Z.mod_small; clear - Hk; lia).
  assert (Hnk0 : (- k) mod n <> 0).
  { rewrite opp_mod_sub by exact Hk. clear - Hk. lia. }
  assert (HR : w_on c R) by (apply mul_on; auto).
  assert (EnR : w_mul c (- k) G = w_neg c R) by (symmetry; apply (mulG_neg c Hv)).
  assert (CR : compressed_bytes c R = (2 + v) :: z2be 32 r).
  { unfold compressed_bytes. rewrite <- Ev, Exr. reflexivity. }
  assert (CnR : compressed_bytes c (w_mul c (- k) G) = (3 - v) :: z2be 32 r).
  { rewrite EnR. unfold compressed_bytes. rewrite px_neg, Exr.
    rewrite (py_odd_neg E c HE) by (auto; apply (mulG_py_ne E c HE); exact Hk).
    rewrite <- Ev. f_equal. ring. }
  (* the successful attempt *)
  assert (Hgood : forall tag, tag :: z2be 32 r = compressed_bytes c (w_mul c (- k) G) ->
    recover_try E (ec_decompress p x3b) tag (n - s) rinv sig msg =
      Ret (Some (point_bytes c (w_mul c d G)))).
  { intros tag Ht. rewrite (Htry tag (n - s) (- k)); [|clear - Bs2 Hn0; assert (n / 2 < n) by (apply Z.div_lt; lia); lia|exact Hnk0|exact Ht]. cbn zeta.
    assert (EQ : w_mul c (rinv * ((n - s) * - k - be2z msg)) G = w_mul c d G).
    { apply (mulG_eq c Hv). fold n.
      replace (rinv * ((n - s) * - k - be2z msg)) with (rinv * (s * k - be2z msg) + (- rinv * k) * n) by ring.
      rewrite Z.mod_add by (clear - Hn0; lia).
      rewrite Zmult_mod, (Zminus_mod (s * k)), Es, <- Zminus_mod, <- Zmult_mod.
      replace (rinv * (d * r + be2z msg - be2z msg)) with (r * rinv * d) by ring.
      rewrite Zmult_mod, Eri, Z.mul_1_l, Zmod_mod. reflexivity. }
    rewrite EQ.
    assert (Hver : verify_ecdsa E (px c (w_mul c d G)) (py c (w_mul c d G)) msg r s = true).
    { apply (verify_ecdsa_spec E c HE); [apply mul_on; auto|exact Hl|].
      apply (good_sig_valid E c HE d (be2z msg) r s v). exact Hg. }
    rewrite Hver. reflexivity. }
  destruct Hv01 as [-> | ->]; cbn [Z.eqb Pos.eqb].
  - (* v = 0: the first attempt uses s = 0 and fails *)
    rewrite (Htry 2 0 k); [|apply Z.le_refl|exact Hk0|symmetry; exact CR].
    cbn zeta.
    set (Q := w_mul c (rinv * (0 * k - be2z msg)) G).
    destruct (verify_ecdsa E (px c Q) (py c Q) msg r s) eqn:EV.
    + exfalso. apply (verify_ecdsa_spec E c HE) in EV; [|apply mul_on; auto|exact Hl].
      destruct EV as (_ & _ & w & Ew & HI & _). apply HI.
      fold G n. unfold Q, G. rewrite (mulG_mul c Hv), (mulG_add c Hv). apply (mulG_inf c Hv). fold n.
      rewrite Z.add_mod, Zmod_mod, Zmult_mod_idemp_l, <- Z.add_mod by (clear - Hn0; lia).
      replace (be2z msg * w + r * w * (rinv * (0 * k - be2z msg)))
        with (be2z msg * w * (1 - r * rinv)) by ring.
      rewrite Zmult_mod, Zminus_mod, Eri, Z.mod_1_l by (clear - Hns; lia).
      change ((1 - 1) mod n) with (0 mod n). rewrite Zmod_0_l, Z.mul_0_r. apply Zmod_0_l.
    + apply Hgood. symmetry. exact CnR.
  - rewrite (Hgood 2); [reflexivity|]. symmetry. exact CnR.
Qed.

(** Recovery does not crash unless r is a multiple of n. *)
Lemma decompress_total tag xs : tag = 2 \/ tag = 3 -> length xs = 32%nat ->
  ec_decompress p x3b (tag :: xs) <> None.
Proof.
  intros Ht Hl. pose proof (im_34 E c HE) as H4. fold p in H4. unfold ec_decompress.
  cbn [length]. rewrite Hl. cbn [Nat.eqb negb orb].
  replace (negb (tag =? 2) && negb (tag =? 3)) with false by (destruct Ht as [-> | ->]; reflexivity).
  set (y := match mod_sqrt34 _ _ with Some y => y | None => 0 end). clearbody y.
  set (yb := if tag =? 2 then 0 else 1).
  assert (Hyb : yb = 0 \/ yb = 1) by (unfold yb; destruct (tag =? 2); auto). clearbody yb.
  destruct (y mod 2 =? yb) eqn:E1; [rewrite E1; discriminate|].
  replace ((p - y) mod 2 =? yb) with true; [discriminate|].
  symmetry. apply Z.eqb_eq. apply Z.eqb_neq in E1. clear - H4 E1 Hyb. lia.
Qed.

Theorem recover_no_panic sig msg :
  (be2z (firstn 32 sig)) mod n <> 0 ->
  recover_public E (ec_decompress p x3b) sig msg <> Panic.
Proof.
  intros Hr. unfold recover_public.
  destruct (length sig =? 65)%nat eqn:L1; [|discriminate].
  destruct (length msg =? 32)%nat eqn:L2; [|discriminate]. cbn [negb orb].
  apply Nat.eqb_eq in L1.
  rewrite (im_N E c HE). fold n.
  destruct (mod_inverse_prime _ n (n_prime E c HE) Hr) as [ri ->].
  assert (HT : forall tag z, tag = 2 \/ tag = 3 ->
     recover_try E (ec_decompress p x3b) tag z ri sig msg <> Panic).
  { intros tag z Ht. unfold recover_try.
    destruct (ec_decompress p x3b (tag :: firstn 32 sig)) eqn:ED.
    - destruct (e_ScalarMult E _ _ (big_bytes (Z.abs z))) as [x1 y1].
      destruct (e_ScalarBaseMult E msg) as [x2 y2].
      destruct (e_Add E x1 y1 x2 (e_P E - y2)) as [x3 y3].
      destruct (e_ScalarMult E x3 y3 (big_bytes ri)) as [qx qy].
      destruct (verify_ecdsa E qx qy msg _ _); discriminate.
    - exfalso. apply (decompress_total tag (firstn 32 sig)) in ED; auto.
      apply firstn_length_le. rewrite L1. clear; lia. }
  set (s0 := if nth 64 sig 0 =? 1 then _ else 0).
  destruct (recover_try E (ec_decompress p x3b) 2 s0 ri sig msg) as [[pub|]|] eqn:E1.
  - discriminate.
  - apply HT; auto.
  - exfalso. apply (HT 2 s0); auto.
Qed.

End Recover.
