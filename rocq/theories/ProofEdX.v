(** Curve conversion and X25519 signatures of package eddsa. *)
Require Import ZArith List Lia Bool Znumtheory Field.
Require Import Verif.Base Verif.Words Verif.Fp Verif.Group Verif.Edw Verif.SpecEd Verif.EdCurve Verif.ModelECDSA Verif.ModelSlp Verif.ModelEdCode Verif.ModelEd Verif.ModelEdDSA.
Require Import Verif.ProofSlp Verif.ProofEdF Verif.ProofEdG Verif.ProofEdC Verif.ProofEdN Verif.ProofEdT Verif.ProofEdM Verif.ProofEdR Verif.ProofEdS.
Import ListNotations.
Open Scope Z_scope.
Lemma Kf25x : field_theory (fz 0) (fz 1) fp_add fp_mul fp_sub fp_opp fp_div fp_inv (@eq F25).
Proof. exact Kf25. Qed.
Add Field KF25x : Kf25x.

Theorem geNegate_ok s : length s = 32%nat -> bytes_ok s ->
  let y := fz (le2z s mod 2 ^ 255) in
  if fst (geFromBytesNegateVartime s)
  then exists x, ed_on (x, y) /\ ext_rep 2 (snd (geFromBytesNegateVartime s)) (fp_opp x, y) /\
                 (fval x mod 2 = le2z s / 2 ^ 255 \/ x = fz 0)
  else forall x, ~ ed_on (x, y).
Proof.
  intros HL HB y. pose proof (rep_frombytes s HL HB) as HY. fold y in HY. clearbody y.
  destruct (top_bit s HL HB) as [TB BB]. unfold geFromBytesNegateVartime. cbv zeta. rewrite TB.
  set (Y := FeFromBytes s) in *. clearbody Y. set (sg := le2z s / 2 ^ 255) in *. clearbody sg. clear HL HB TB s.
  pose proof (rep_sq _ _ _ HY ltac:(lia)) as H1. pose proof (rep_mul _ _ _ _ _ _ H1 fe_d_rep ltac:(lia) ltac:(lia)) as H2.
  pose proof (rep_sub _ _ _ _ _ _ H1 rep_1 ltac:(lia)) as HU. pose proof (rep_add _ _ _ _ _ _ H2 rep_1 ltac:(lia)) as HV.
  set (U := FeSub (FeSquare Y) FeOne) in *. set (V := FeAdd (FeMul (FeSquare Y) fe_d) FeOne) in *. clearbody U V. clear H1 H2.
  assert (Hon : forall x, ed_on (x, y) <-> fp_mul (fp_add (fp_mul (fp_mul y y) ed_d) (fz 1)) (fp_mul x x) = fp_sub (fp_mul y y) (fz 1)) by (intros; apply on_iff).
  set (u := fp_sub (fp_mul y y) (fz 1)) in *. set (v := fp_add (fp_mul (fp_mul y y) ed_d) (fz 1)) in *. clearbody u v.
  change (1 + 1) with 2 in *.
  pose proof (rep_sq _ _ _ HV ltac:(lia)) as A1. pose proof (rep_mul _ _ _ _ _ _ A1 HV ltac:(lia) ltac:(lia)) as A3.
  pose proof (rep_sq _ _ _ A3 ltac:(lia)) as A4. pose proof (rep_mul _ _ _ _ _ _ A4 HV ltac:(lia) ltac:(lia)) as A5.
  pose proof (rep_mul _ _ _ _ _ _ A5 HU ltac:(lia) ltac:(lia)) as A6.
  pose proof (fePow22523_ok _ _ (rep_weaken 1 3 _ _ ltac:(lia) A6)) as A7. unfold rp in A7.
  pose proof (rep_mul _ _ _ _ _ _ A7 A3 ltac:(lia) ltac:(lia)) as A8. pose proof (rep_mul _ _ _ _ _ _ A8 HU ltac:(lia) ltac:(lia)) as A9.
  set (X := FeMul (FeMul (fePow22523 _) _) U) in *. clearbody X. clear A1 A3 A4 A5 A6 A7 A8.
  pose proof (root_cases u v) as RC. cbv zeta in RC.
  set (x := fp_mul (fp_mul (pw _ _) _) u) in *. clearbody x.
  pose proof (rep_sq _ _ _ A9 ltac:(lia)) as B1. pose proof (rep_mul _ _ _ _ _ _ B1 HV ltac:(lia) ltac:(lia)) as B2.
  set (W := FeMul (FeSquare X) V) in *. clearbody W. clear B1.
  rewrite (rep_nonzero _ _ _ (rep_sub _ _ _ _ _ _ B2 HU ltac:(lia)) ltac:(lia)).
  rewrite (rep_nonzero _ _ _ (rep_add _ _ _ _ _ _ B2 HU ltac:(lia)) ltac:(lia)).
  assert (FIN : forall c X' x', c <= 2 -> rep c X' x' -> fp_mul v (fp_mul x' x') = u ->
     let r := (let '(neg, X0) := FeIsNegative X' in
               let X0 := if neg =? sg then FeNeg X0 else X0 in (true, mkext X0 Y FeOne (FeMul X0 Y))) in
     if fst r then exists x, ed_on (x, y) /\ ext_rep 2 (snd r) (fp_opp x, y) /\ (fval x mod 2 = sg \/ x = fz 0)
     else forall x, ~ ed_on (x, y)).
  { intros c X' x' Hc HX E. cbv zeta. destruct (rep_neg_bit _ _ _ HX ltac:(lia)) as [C1 C2].
    destruct (FeIsNegative X') as [neg X0]. cbn [fst snd] in C1, C2. subst neg.
    assert (G : forall X1 x1, rep 2 X1 (fp_opp x1) -> fp_mul v (fp_mul x1 x1) = u -> (fval x1 mod 2 = sg \/ x1 = fz 0) ->
       exists x, ed_on (x, y) /\ ext_rep 2 (mkext X1 Y FeOne (FeMul X1 Y)) (fp_opp x, y) /\ (fval x mod 2 = sg \/ x = fz 0)).
    { intros X1 x1 R1 R2 R3. exists x1. split; [now apply Hon|]. split; [|exact R3].
      exists (fz 1). split; [apply fp_of_ne0; split; reflexivity|]. cbn [eX eY eZ eT fst snd].
      split; [eapply rep_eq; [exact R1|ring]|]. split; [eapply rep_eq; [exact HY|ring]|]. split; [exact rep_1|].
      eapply rep_eq; [eapply rep_mul; [exact R1|exact HY|lia|lia]|ring]. }
    cbn [fst snd]. destruct (Z.eqb_spec (fval x' mod 2) sg) as [D|D].
    - apply (G (FeNeg X0) x'); auto. apply rep_neg; [exact C2|lia].
    - apply (G X0 (fp_opp x')).
      + eapply rep_eq; [exact C2|ring].
      + rewrite <- E. ring.
      + destruct (fp_dec x' (fz 0)) as [Z0|Z0]; [right; rewrite Z0; ring|left].
        rewrite (parity_opp _ Z0). pose proof (Z.mod_pos_bound (fval x') 2 ltac:(lia)). lia. }
  destruct (fp_dec (fp_sub (fp_mul (fp_mul x x) v) u) (fz 0)) as [D1|D1].
  - change (0 =? 0) with true. cbn [negb]. apply (FIN 1 X x); [lia|exact A9|].
    transitivity (fp_add (fp_sub (fp_mul (fp_mul x x) v) u) u); [ring|]. rewrite D1. ring.
  - change (1 =? 0) with false. cbn [negb].
    destruct (fp_dec (fp_add (fp_mul (fp_mul x x) v) u) (fz 0)) as [D2|D2].
    + change (0 =? 0) with true. cbn [negb].
      pose proof (rep_mul _ _ _ _ _ _ A9 fe_sqrtm1_rep ltac:(lia) ltac:(lia)) as C1.
      set (X' := FeMul X fe_sqrtm1) in *. clearbody X'. apply (FIN 1 _ _ ltac:(lia) C1).
      transitivity (fp_mul (fp_mul (fp_mul x x) v) (fp_mul (fz ed_iz) (fz ed_iz))); [ring|]. rewrite ed_i_sq.
      transitivity (fp_sub u (fp_add (fp_mul (fp_mul x x) v) u)); [ring|]. rewrite D2. ring.
    + change (1 =? 0) with false. cbn [negb]. cbn [fst]. intros x0 H0. apply Hon in H0.
      destruct (RC x0 H0) as [E|E].
      * apply D1. rewrite E. ring.
      * apply D2. rewrite E. ring.
Qed.

(** ** Bytes *)
Lemma top_byte l : length l = 32%nat -> bytes_ok l -> nth 31 l 0 = le2z l / 2 ^ 248 /\ 0 <= nth 31 l 0 < 256.
Proof.
  intros HL HB. destruct (ends32 l HL) as (a & m & z & -> & Hm).
  change 31%nat with (S 30). rewrite nth_S, <- Hm, nth_app_last.
  inversion HB as [|a' t' Ha Ht]; subst. apply Forall_app in Ht. destruct Ht as [Hmo Hz]. inversion Hz as [|z' t'' Hz' _]; subst. unfold byte_ok in *.
  split; [|exact Hz']. cbn [le2z]. rewrite !le2z_app, Hm. cbn [le2z]. rewrite !Z.mul_0_r, !Z.add_0_r.
  pose proof (le2z_bound m Hmo) as Bm. rewrite Hm in Bm. set (M := le2z m) in *. clearbody M.
  change (256 ^ Z.of_nat 30) with (2 ^ 240) in *. clear -Ha Hz' Bm. lia.
Qed.
Lemma upd_top l v : length l = 32%nat -> bytes_ok l -> 0 <= v < 256 ->
  upd 31 v l = z2le 32 (le2z l mod 2 ^ 248 + 2 ^ 248 * v) /\ length (upd 31 v l) = 32%nat /\ bytes_ok (upd 31 v l).
Proof.
  intros HL HB Hv. destruct (ends32 l HL) as (a & m & z & -> & Hm).
  assert (U : upd 31 v (a :: m ++ [z]) = a :: m ++ [v]) by (change 31%nat with (S 30); rewrite upd_S, <- Hm, upd_app_last; reflexivity).
  rewrite U. clear U.
  inversion HB as [|a' t' Ha Ht]; subst. apply Forall_app in Ht. destruct Ht as [Hmo Hz]. inversion Hz as [|z' t'' Hz' _]; subst. unfold byte_ok in *.
  assert (L : length (a :: m ++ [v]) = 32%nat) by (cbn [length]; rewrite app_length; cbn [length]; lia).
  assert (B : bytes_ok (a :: m ++ [v])).
  { constructor; [exact Ha|]. apply Forall_app. split; [exact Hmo|]. constructor; [exact Hv|constructor]. }
  split; [|split; assumption]. rewrite <- (z2le_le2z (a :: m ++ [v]) B) at 1. rewrite L. f_equal.
  cbn [le2z]. rewrite !le2z_app, Hm. cbn [le2z]. rewrite !Z.mul_0_r, !Z.add_0_r.
  pose proof (le2z_bound m Hmo) as Bm. rewrite Hm in Bm. set (M := le2z m) in *. clearbody M.
  change (256 ^ Z.of_nat 30) with (2 ^ 240) in *. clear -Ha Hz' Hv Bm. 
  replace (a + 256 * (M + 2 ^ 240 * z)) with (a + 256 * M + z * 2 ^ 248) by lia.
  rewrite Z.mod_add by discriminate. rewrite Z.mod_small by lia. lia.
Qed.
Lemma byte127 x : 0 <= x < 256 -> Z.land x 127 = x mod 128.
Proof. intros H. apply Z.eqb_eq. apply (all256_ok (fun x => Z.land x 127 =? x mod 128)); [vm_compute; reflexivity|exact H]. Qed.
Lemma byte128 x : 0 <= x < 256 -> Z.land x 128 = 128 * (x / 128).
Proof. intros H. apply Z.eqb_eq. apply (all256_ok (fun x => Z.land x 128 =? 128 * (x / 128))); [vm_compute; reflexivity|exact H]. Qed.
Lemma byteor x y : 0 <= x < 256 -> (y = 0 \/ y = 128) -> Z.lor (Z.land x 127) y = x mod 128 + y.
Proof.
  intros H [-> | ->]; apply Z.eqb_eq.
  - apply (all256_ok (fun x => Z.lor (Z.land x 127) 0 =? x mod 128 + 0)); [vm_compute; reflexivity|exact H].
  - apply (all256_ok (fun x => Z.lor (Z.land x 127) 128 =? x mod 128 + 128)); [vm_compute; reflexivity|exact H].
Qed.
Lemma half s : 0 <= s < 2 ^ 256 -> let t := s / 2 ^ 248 in
  s mod 2 ^ 248 + 2 ^ 248 * (t mod 128) = s mod 2 ^ 255 /\ t / 128 = s / 2 ^ 255.
Proof. cbv zeta. lia. Qed.
Lemma nth63 (R s : bytes) : length R = 32%nat -> nth 63 (R ++ s) 0 = nth 31 s 0.
Proof. intros H. rewrite app_nth2 by lia. now rewrite H. Qed.
Lemma upd_app_r (R s : bytes) i v : upd (length R + i) v (R ++ s) = R ++ upd i v s.
Proof. induction R as [|x R IH]; [reflexivity|]. cbn. now rewrite IH. Qed.
Lemma upd63 (R s : bytes) v : length R = 32%nat -> upd 63 v (R ++ s) = R ++ upd 31 v s.
Proof. intros H. rewrite <- (upd_app_r R s 31 v), H. reflexivity. Qed.

(** the two halves of a 32-byte string: 255 bits and the top bit *)
Lemma low_bits l : length l = 32%nat -> bytes_ok l -> upd 31 (Z.land (nth 31 l 0) 127) l = z2le 32 (le2z l mod 2 ^ 255).
Proof.
  intros HL HB. destruct (top_byte l HL HB) as [E R]. rewrite byte127 by exact R.
  destruct (upd_top l (nth 31 l 0 mod 128) HL HB ltac:(lia)) as (U & _ & _). rewrite U. f_equal. rewrite E.
  pose proof (le2z_bound l HB) as D. rewrite HL in D. change (256 ^ Z.of_nat 32) with (2 ^ 256) in D. exact (proj1 (half _ D)).
Qed.
Lemma with_top l b : length l = 32%nat -> bytes_ok l -> (b = 0 \/ b = 1) ->
  upd 31 (Z.lor (Z.land (nth 31 l 0) 127) (128 * b)) l = z2le 32 (le2z l mod 2 ^ 255 + 2 ^ 255 * b).
Proof.
  intros HL HB Hb. destruct (top_byte l HL HB) as [E R]. rewrite byteor by (try exact R; lia).
  destruct (upd_top l (nth 31 l 0 mod 128 + 128 * b) HL HB ltac:(lia)) as (U & _ & _). rewrite U. f_equal. rewrite E.
  pose proof (le2z_bound l HB) as D. rewrite HL in D. change (256 ^ Z.of_nat 32) with (2 ^ 256) in D.
  pose proof (proj1 (half _ D)). lia.
Qed.
Lemma top_flag l : length l = 32%nat -> bytes_ok l -> Z.land (nth 31 l 0) 128 = 128 * (le2z l / 2 ^ 255) /\ (le2z l / 2 ^ 255 = 0 \/ le2z l / 2 ^ 255 = 1).
Proof.
  intros HL HB. destruct (top_byte l HL HB) as [E R]. rewrite byte128 by exact R. rewrite E.
  pose proof (le2z_bound l HB) as D. rewrite HL in D. change (256 ^ Z.of_nat 32) with (2 ^ 256) in D.
  split; [f_equal; exact (proj2 (half _ D))|]. clear -D. lia.
Qed.

(** ** Conversion *)
Lemma fp_inv_0 : fp_inv (fz 0) = fz 0.
Proof. reflexivity. Qed.
Lemma FeInvert_all z x : rep 3 z x -> rep 1 (FeInvert z) (fp_inv x).
Proof.
  intros H. destruct (fp_dec x (fz 0)) as [->|N]; [|now apply FeInvert_ok].
  rewrite fp_inv_0. exact (FeInvert_pw z _ H).
Qed.
Lemma rep_montToEdy f u : rep 1 f u -> rep 1 (montToEdy f) (mont_y u).
Proof.
  intros H. unfold montToEdy, mont_y, fp_div. apply (rep_mul 2 1); [|now apply FeInvert_all, (rep_weaken 2 3), (rep_add 1 1); try exact rep_1; try lia|lia|lia].
  apply (rep_sub 1 1); [exact H|exact rep_1|lia].
Qed.
Lemma rep_montFromEdy f y : rep 1 f y -> rep 1 (montFromEdy f) (mont_u y).
Proof.
  intros H. unfold montFromEdy. eapply rep_eq.
  - apply (rep_mul 1 2); [apply FeInvert_all, (rep_weaken 2 3), (rep_sub 1 1); [lia|exact rep_1|exact H|lia]|apply (rep_add 1 1); [exact H|exact rep_1|lia]|lia|lia].
  - unfold mont_u, fp_div. ring.
Qed.
Lemma f25_enc_length x : length (f25_enc x) = 32%nat. Proof. apply z2le_length. Qed.
Lemma f25_enc_ok x : bytes_ok (f25_enc x). Proof. apply z2le_ok. Qed.
Lemma f25_enc_val x : le2z (f25_enc x) = fval x.
Proof. unfold f25_enc. rewrite le2z_z2le. apply Z.mod_small. pose proof (fval255 x). change (256 ^ Z.of_nat 32) with (2 * 2 ^ 255). lia. Qed.
Lemma rep_enc c f x : rep c f x -> c <= 3 -> fst (FeToBytes f) = f25_enc x.
Proof. intros H Hc. exact (proj1 (rep_tobytes c f x H Hc)). Qed.
Lemma f25_enc_dec x : fz (le2z (f25_enc x) mod 2 ^ 255) = x.
Proof. rewrite f25_enc_val, Z.mod_small by apply fval255. apply fp_of_val. Qed.

(** canonical: the encoding of a field element *)
Lemma feIsReduced_iff s : length s = 32%nat -> bytes_ok s -> (feIsReduced s = false <-> s = f25_enc (fz (le2z s mod 2 ^ 255))).
Proof.
  intros HL HB. unfold feIsReduced. rewrite (rep_enc 1 _ _ (rep_frombytes s HL HB)) by lia.
  rewrite negb_false_iff, Z.eqb_eq. apply cv32_zero; [now rewrite f25_enc_length|exact HB|apply f25_enc_ok].
Qed.
Lemma feIsReduced_enc x : feIsReduced (f25_enc x) = false.
Proof. apply feIsReduced_iff; [apply f25_enc_length|apply f25_enc_ok|]. now rewrite f25_enc_dec. Qed.
Lemma canonical_iff s : length s = 32%nat -> bytes_ok s -> (s = f25_enc (fz (le2z s mod 2 ^ 255)) <-> le2z s < p25).
Proof.
  intros HL HB. split.
  - intros ->. rewrite f25_enc_val. apply fval25.
  - intros H. pose proof (le2z_nonneg s HB) as N.
    assert (P : p25 < 2 ^ 255) by reflexivity. rewrite (Z.mod_small (le2z s)) by lia. unfold f25_enc. rewrite fval_of, Z.mod_small by lia.
    rewrite <- HL. symmetry. now apply z2le_le2z.
Qed.

Theorem X_to_Ed_spec s : length s = 32%nat -> bytes_ok s ->
  CURVE25519_convert_X_to_Ed s = if le2z s <? p25 then Ok (f25_enc (mont_y (fz (le2z s)))) else Err ErrOther.
Proof.
  intros HL HB. unfold CURVE25519_convert_X_to_Ed, ConvertXToEd. rewrite HL. cbn [Nat.eqb negb].
  rewrite (rep_enc 1 _ _ (rep_montToEdy _ _ (rep_frombytes s HL HB))) by lia.
  pose proof (feIsReduced_iff s HL HB) as F. rewrite (canonical_iff s HL HB) in F.
  pose proof (le2z_nonneg s HB) as N. assert (P : p25 < 2 ^ 255) by reflexivity.
  destruct (Z.ltb_spec (le2z s) p25) as [L|L].
  - rewrite (proj2 F L). rewrite (Z.mod_small (le2z s)) by lia. reflexivity.
  - destruct (feIsReduced s); [reflexivity|]. exfalso. pose proof (proj1 F eq_refl). lia.
Qed.
Theorem Ed_to_X_spec s : length s = 32%nat -> bytes_ok s ->
  CURVE25519_convert_Ed_to_X s = Ok (f25_enc (mont_u (fz (le2z s mod 2 ^ 255)))).
Proof.
  intros HL HB. unfold CURVE25519_convert_Ed_to_X, ConvertEdToX. rewrite HL. cbn [Nat.eqb negb]. cbv zeta.
  rewrite (rep_enc 1 _ _ (rep_montFromEdy _ _ (rep_frombytes s HL HB))) by lia.
  now rewrite feIsReduced_enc.
Qed.
Lemma two_ne : fp_add (fz 1) (fz 1) <> fz 0.
Proof. intros E. assert (H : fval (fp_add (fz 1) (fz 1)) = fval (fz 0)) by now rewrite E. vm_compute in H. discriminate H. Qed.
Lemma sub_ne (a b : F25) : a <> b -> fp_sub a b <> fz 0.
Proof. intros N E. apply N. transitivity (fp_add (fp_sub a b) b); [ring|]. rewrite E. ring. Qed.
Lemma mont_y_u y : y <> fz 1 -> mont_y (mont_u y) = y.
Proof.
  intros N. assert (D : fp_sub (fz 1) y <> fz 0) by (apply sub_ne; congruence). unfold mont_y, mont_u.
  assert (D' : fp_add (fp_add y (fz 1)) (fp_sub (fz 1) y) <> fz 0).
  { intros E. apply two_ne. rewrite <- E. ring. }
  field. split; assumption.
Qed.
Lemma mont_u_y u : u <> fp_opp (fz 1) -> mont_u (mont_y u) = u.
Proof.
  intros N. assert (D : fp_add u (fz 1) <> fz 0).
  { intros E. apply N. transitivity (fp_sub (fp_add u (fz 1)) (fz 1)); [ring|]. rewrite E. ring. }
  unfold mont_y, mont_u.
  assert (D' : fp_sub (fp_add u (fz 1)) (fp_sub u (fz 1)) <> fz 0).
  { intros E. apply two_ne. rewrite <- E. ring. }
  field. split; assumption.
Qed.

(** ** Signatures *)
Section Proofs.
Variable sha512 : bytes -> bytes.
Hypothesis sha_len : forall m, length (sha512 m) = 64%nat.
Hypothesis sha_ok : forall m, bytes_ok (sha512 m).

Lemma x_sc_reduce s : x25519_sc_reduce s = ScReduce s.
Proof using. unfold x25519_sc_reduce, ScReduce. destruct x_reduce_same as [-> ->]. reflexivity. Qed.

Lemma sign_modify_spec msg key edpub rnd : bytes_ok key -> length key = 32%nat ->
  sign_modify sha512 msg key edpub rnd = ed_sig_r sha512 (x_hash1 sha512 key msg rnd) (le2z key) edpub msg.
Proof using sha_len sha_ok.
  intros HB HL. unfold sign_modify. rewrite !x_sc_reduce.
  exact (tail_r sha512 sha_len sha_ok (sha512 ((254 :: repeat 255 31) ++ key ++ msg ++ rnd)) key edpub msg (sha_ok _) (sha_len _) HB HL).
Qed.
Theorem X25519_sign_spec rnd key msg : bytes_ok key -> length key = 32%nat -> le2z key < 2 ^ 255 ->
  X25519_sign sha512 rnd key msg = Ok (x_sig sha512 rnd key msg).
Proof using sha_len sha_ok.
  intros HB HL LT. unfold X25519_sign. rewrite HL. cbn [Nat.eqb negb]. rewrite ED25519_genPub_spec by assumption. cbv zeta. f_equal.
  unfold x_sig. cbv zeta. set (A := ed_mul (le2z key) ed_B). clearbody A.
  rewrite sign_modify_spec by assumption.
  destruct (sig_parts sha512 sha_len sha_ok (x_hash1 sha512 key msg rnd) (le2z key) (ed_enc A) msg) as (S1 & S2 & S3 & S4).
  set (sg := ed_sig_r sha512 (x_hash1 sha512 key msg rnd) (le2z key) (ed_enc A) msg) in *.
  set (v := _ mod ed_L) in S2. assert (V : 0 <= v < 2 ^ 253).
  { pose proof L_lt. pose proof (Z.mod_pos_bound (x_hash1 sha512 key msg rnd + le2z (sha512 (ed_enc (ed_mul (x_hash1 sha512 key msg rnd) ed_B) ++ ed_enc A ++ msg)) * le2z key) ed_L ltac:(reflexivity)) as D. fold v in D. lia. }
  clearbody v. clear S1.
  assert (L1 : length (firstn 32 sg) = 32%nat) by (rewrite firstn_length, S3; reflexivity).
  assert (L2 : length (skipn 32 sg) = 32%nat) by (rewrite skipn_length, S3; reflexivity).
  assert (B2 : bytes_ok (skipn 32 sg)) by now apply bytes_ok_skipn.
  rewrite <- (firstn_skipn 32 sg) at 1 2. set (R := firstn 32 sg) in *. set (T := skipn 32 sg) in *. clearbody R T.
  rewrite nth63, upd63 by exact L1. f_equal.
  destruct (top_flag (ed_enc A) (ed_enc_length A) (ed_enc_ok A)) as [F1 F2]. rewrite F1, with_top by assumption.
  f_equal. f_equal.
  - rewrite Z.mod_small; [reflexivity|]. rewrite S2. lia.
  - f_equal. rewrite ed_enc_val. rewrite Z.mul_comm, Z.div_add, Z.div_small by (try apply fval255; lia). reflexivity.
Qed.

(** what the verifier reconstructs *)
Definition x_edpub (pub sig : bytes) : bytes :=
  z2le 32 (fval (mont_y (fz (le2z pub mod 2 ^ 255))) + 2 ^ 255 * (le2z (skipn 32 sig) / 2 ^ 255)).
Definition x_edsig (sig : bytes) : bytes := firstn 32 sig ++ z2le 32 (le2z (skipn 32 sig) mod 2 ^ 255).

Lemma geNegate_dec pub : length pub = 32%nat -> bytes_ok pub ->
  (exists A, geFromBytesNegateVartime pub = (true, snd (geFromBytesNegateVartime pub)) /\ ed_dec pub A /\
             ext_rep 2 (snd (geFromBytesNegateVartime pub)) (ed_neg A)) \/
  (fst (geFromBytesNegateVartime pub) = false /\ forall A, ~ ed_dec pub A).
Proof using.
  intros HL HB. pose proof (geNegate_ok pub HL HB) as H. cbv zeta in H.
  destruct (geFromBytesNegateVartime pub) as [[|] e]; cbn [fst snd] in *.
  - left. destruct H as (x & H1 & H2 & H3). exists (x, fz (le2z pub mod 2 ^ 255)). split; [reflexivity|]. split; [|exact H2]. split; [exact H1|]. split; [reflexivity|exact H3].
  - right. split; [reflexivity|]. intros [x y] (H1 & H2 & _). cbn [fst snd] in H2. subst y. exact (H x H1).
Qed.
Lemma bool_iff (a b : bool) : (a = true <-> b = true) -> a = b.
Proof using. destruct a, b; intros [H1 H2]; try reflexivity; [now rewrite H1|now rewrite H2]. Qed.
Lemma verify_modify_spec sig pub msg : length sig = 64%nat -> bytes_ok sig -> length pub = 32%nat -> bytes_ok pub ->
  verify_modify sha512 (sig ++ msg) pub = eddsa_verify sha512 pub msg sig.
Proof using sha_len sha_ok.
  intros LS HS LP HP. apply bool_iff. rewrite eddsa_verify_iff by assumption. unfold verify_modify.
  rewrite app_nth1 by lia.
  destruct (Z.eqb_spec (Z.land (nth 63 sig 0) 224) 0) as [T|T]; cbn [negb].
  2:{ split; [discriminate|]. intros (_ & _ & X & _). exfalso. apply T. now apply land224. }
  rewrite (land224 sig LS HS) in T.
  destruct (geNegate_dec pub LP HP) as [(A & E & D & R)|[E D]].
  2:{ destruct (geFromBytesNegateVartime pub) as [b e]. cbn [fst] in E. subst b. cbn [negb]. split; [discriminate|]. intros (_ & _ & _ & A & DA & _). exfalso. exact (D A DA). }
  rewrite E. cbn [negb]. set (q := snd (geFromBytesNegateVartime pub)) in *. clearbody q. cbv zeta. rewrite x_sc_reduce.
  assert (F1 : firstn 32 (sig ++ msg) = firstn 32 sig).
  { rewrite firstn_app, LS. cbn [Nat.sub]. rewrite firstn_O. apply app_nil_r. }
  assert (F2 : skipn 64 (sig ++ msg) = msg).
  { rewrite <- LS. rewrite skipn_app, skipn_all, Nat.sub_diag. reflexivity. }
  assert (LB : length (skipn 32 sig) = 32%nat) by (rewrite skipn_length, LS; reflexivity).
  assert (F3 : firstn 32 (skipn 32 (sig ++ msg)) = skipn 32 sig).
  { rewrite skipn_app, LS. cbn [Nat.sub]. rewrite skipn_O, firstn_app, LB, Nat.sub_diag. rewrite <- LB at 1. rewrite firstn_all, firstn_O. apply app_nil_r. }
  rewrite F1, F2, F3.
  destruct (red_ok sha512 sha_len sha_ok (firstn 32 sig ++ pub ++ msg)) as (h1 & h2 & h3 & h4).
  assert (OA : ed_on A) by exact (proj1 D).
  pose proof (GeDoubleScalarMultVartime_ok 2 (ScReduce (sha512 (firstn 32 sig ++ pub ++ msg))) _ _ (skipn 32 sig) ltac:(lia)
     (ed_neg_on A OA) R h2 h1 ltac:(lia) (bytes_ok_skipn 32 sig HS) LB ltac:(lia)) as G.
  rewrite h3, (eqn_point _ _ _ OA) in G. rewrite (proj_tobytes_ok 1 _ _ ltac:(lia) G).
  rewrite Z.eqb_eq, cv32ref_zero; [|rewrite ed_enc_length, firstn_length, LS; reflexivity|apply ed_enc_ok|apply bytes_ok_firstn, HS].
  split.
  - intros H. repeat split; try assumption. exists A. split; [exact D|]. exact H.
  - intros (_ & _ & _ & A' & D' & H). rewrite (ed_dec_unique _ _ _ D D'). exact H.
Qed.

Theorem X25519_verify_spec pub msg sig : bytes_ok pub -> bytes_ok sig -> length pub = 32%nat -> length sig = 64%nat -> msg <> [] ->
  X25519_verify sha512 pub msg sig = eddsa_verify sha512 (x_edpub pub sig) msg (x_edsig sig).
Proof using sha_len sha_ok.
  intros HP HS LP LS HM. unfold X25519_verify. rewrite LP, LS. cbn [Nat.eqb negb orb].
  destruct msg as [|m0 msg]; [contradiction|]. cbn [length Nat.eqb]. set (M := m0 :: msg). clearbody M. cbv zeta.
  rewrite (rep_enc 1 _ _ (rep_montToEdy _ _ (rep_frombytes pub LP HP))) by lia.
  set (y := mont_y (fz (le2z pub mod 2 ^ 255))).
  assert (L1 : length (firstn 32 sig) = 32%nat) by (rewrite firstn_length, LS; reflexivity).
  assert (L2 : length (skipn 32 sig) = 32%nat) by (rewrite skipn_length, LS; reflexivity).
  assert (B1 : bytes_ok (firstn 32 sig)) by now apply bytes_ok_firstn.
  assert (B2 : bytes_ok (skipn 32 sig)) by now apply bytes_ok_skipn.
  assert (S1 : upd 63 (Z.land (nth 63 sig 0) 127) sig = x_edsig sig).
  { unfold x_edsig. rewrite <- low_bits by assumption. rewrite <- (firstn_skipn 32 sig) at 1 2. rewrite nth63, upd63 by exact L1. reflexivity. }
  assert (N63 : nth 63 sig 0 = nth 31 (skipn 32 sig) 0) by (rewrite <- (firstn_skipn 32 sig) at 1; now rewrite nth63).
  rewrite S1, N63. destruct (top_flag _ L2 B2) as [T1 T2]. rewrite T1.
  destruct (top_byte _ (f25_enc_length y) (f25_enc_ok y)) as [Y1 Y2].
  assert (U : 0 <= Z.land (nth 31 (f25_enc y) 0) 127 < 256) by (rewrite byte127 by exact Y2; lia).
  assert (N31 : nth 31 (upd 31 (Z.land (nth 31 (f25_enc y) 0) 127) (f25_enc y)) 0 = Z.land (nth 31 (f25_enc y) 0) 127).
  { destruct (ends32 _ (f25_enc_length y)) as (a & m & z & E & Hm). rewrite E. change 31%nat with (S 30). rewrite upd_S, nth_S, <- Hm, upd_app_last, nth_app_last. reflexivity. }
  assert (UU : forall v w, upd 31 v (upd 31 w (f25_enc y)) = upd 31 v (f25_enc y)).
  { intros v w. destruct (ends32 _ (f25_enc_length y)) as (a & m & z & E & Hm). rewrite E. change 31%nat with (S 30). rewrite !upd_S, <- Hm, !upd_app_last. reflexivity. }
  rewrite N31, UU, with_top; [|apply f25_enc_length|apply f25_enc_ok|exact T2].
  rewrite f25_enc_val, Z.mod_small by apply fval255.
  apply verify_modify_spec.
  - unfold x_edsig. rewrite app_length, L1, z2le_length. reflexivity.
  - apply bytes_ok_app; [exact B1|apply z2le_ok].
  - apply z2le_length.
  - apply z2le_ok.
Qed.

Theorem X25519_genPub_spec key : bytes_ok key -> length key = 32%nat -> le2z key < 2 ^ 255 ->
  X25519_genPub key = Ok (f25_enc (mont_u (snd (ed_mul (le2z key) ed_B)))).
Proof using.
  intros HB HL LT. unfold X25519_genPub. rewrite HL. cbn [Nat.eqb negb]. rewrite base_enc by assumption.
  set (A := ed_mul (le2z key) ed_B). clearbody A.
  assert (H : ConvertEdToX (ed_enc A) = CURVE25519_convert_Ed_to_X (ed_enc A)).
  { unfold CURVE25519_convert_Ed_to_X. rewrite ed_enc_length. reflexivity. }
  rewrite H, Ed_to_X_spec by (apply ed_enc_length || apply ed_enc_ok). f_equal. f_equal. f_equal.
  rewrite ed_enc_val, Z.mul_comm, Z.mod_add by discriminate. rewrite Z.mod_small by apply fval255. apply fp_of_val.
Qed.

Lemma y_one_neutral P : ed_on P -> snd P = fz 1 -> P = ed_zero.
Proof using.
  destruct P as [x y]. cbn [snd]. intros H ->.
  destruct (on_same_y x (fz 0) (fz 1) H) as [->|X]; [|reflexivity|rewrite X; unfold ed_zero, e_zero; f_equal; ring].
  exact (g_zero _ _ _ _ _ ed_group).
Qed.

Theorem X25519_roundtrip rnd key msg : bytes_ok key -> length key = 32%nat -> le2z key mod ed_L <> 0 -> msg <> [] ->
  X25519_verify sha512 (f25_enc (mont_u (snd (ed_mul (le2z key) ed_B)))) msg (x_sig sha512 rnd key msg) = true.
Proof using sha_len sha_ok.
  intros HB HL NZ HM. set (A := ed_mul (le2z key) ed_B).
  assert (OA : ed_on A) by apply mulB_on.
  assert (Y1 : snd A <> fz 1).
  { intros E. apply (y_one_neutral _ OA) in E. apply NZ. rewrite <- (Z.mod_0_l ed_L ltac:(discriminate)).
    apply mulB_inj. exact E. }
  destruct (sig_parts sha512 sha_len sha_ok (x_hash1 sha512 key msg rnd) (le2z key) (ed_enc A) msg) as (S1 & S2 & S3 & S4).
  pose proof (sign_verify_iff sha512 sha_len sha_ok (x_hash1 sha512 key msg rnd) (le2z key) (le2z key) msg) as V. cbv zeta in V. fold A in V.
  rewrite Z.sub_diag, Z.mul_0_r, Z.mod_0_l in V by discriminate. pose proof (proj2 V eq_refl) as V'. clear V.
  assert (RV : 0 <= le2z (skipn 32 (ed_sig_r sha512 (x_hash1 sha512 key msg rnd) (le2z key) (ed_enc A) msg)) < 2 ^ 253).
  { rewrite S2. pose proof L_lt. pose proof (Z.mod_pos_bound (x_hash1 sha512 key msg rnd + le2z (sha512 (ed_enc (ed_mul (x_hash1 sha512 key msg rnd) ed_B) ++ ed_enc A ++ msg)) * le2z key) ed_L ltac:(reflexivity)) as D. lia. }
  clear S1 S2. unfold x_sig. cbv zeta. fold A.
  set (sg := ed_sig_r sha512 (x_hash1 sha512 key msg rnd) (le2z key) (ed_enc A) msg) in *. clearbody sg.
  assert (L1 : length (firstn 32 sg) = 32%nat) by (rewrite firstn_length, S3; reflexivity).
  assert (L2 : length (skipn 32 sg) = 32%nat) by (rewrite skipn_length, S3; reflexivity).
  set (b := fval (fst A) mod 2). assert (Hb : 0 <= b <= 1) by (pose proof (Z.mod_pos_bound (fval (fst A)) 2 ltac:(lia)); unfold b; lia).
  set (S0 := le2z (skipn 32 sg)) in *.
  set (sig := firstn 32 sg ++ z2le 32 (S0 + 2 ^ 255 * b)).
  assert (F1 : firstn 32 sig = firstn 32 sg).
  { unfold sig. rewrite firstn_app, L1, Nat.sub_diag, firstn_O, app_nil_r. apply firstn_all2. lia. }
  assert (F2 : skipn 32 sig = z2le 32 (S0 + 2 ^ 255 * b)).
  { unfold sig. rewrite skipn_app, L1, Nat.sub_diag, skipn_O. rewrite skipn_all2 by lia. reflexivity. }
  assert (LV : le2z (skipn 32 sig) = S0 + 2 ^ 255 * b).
  { rewrite F2, le2z_z2le. apply Z.mod_small. change (256 ^ Z.of_nat 32) with (2 * 2 ^ 255). lia. }
  rewrite X25519_verify_spec; [|apply f25_enc_ok|apply bytes_ok_app; [now apply bytes_ok_firstn|apply z2le_ok]|apply f25_enc_length|unfold sig; rewrite app_length, L1, z2le_length; reflexivity|exact HM].
  assert (E1 : x_edpub (f25_enc (mont_u (snd A))) sig = ed_enc A).
  { unfold x_edpub. rewrite f25_enc_dec, mont_y_u by exact Y1. rewrite LV. unfold ed_enc. f_equal. f_equal. f_equal. fold b. clear -RV Hb. lia. }
  assert (E2 : x_edsig sig = sg).
  { unfold x_edsig. rewrite F1, LV. rewrite <- (firstn_skipn 32 sg) at 2. f_equal. rewrite <- (z2le_le2z (skipn 32 sg)) by now apply bytes_ok_skipn.
    rewrite L2. f_equal. fold S0. clear -RV Hb. lia. }
  rewrite E1, E2. exact V'.
Qed.

Theorem X25519_empty pub sig : X25519_verify sha512 pub [] sig = false.
Proof using. unfold X25519_verify. cbn [length Nat.eqb]. now rewrite orb_true_r. Qed.
End Proofs.
