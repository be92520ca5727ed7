(** The Ed25519 functions of package eddsa against RFC 8032. *)
Require Import ZArith List Lia Bool Znumtheory Field.
Require Import Verif.Base Verif.Words Verif.Fp Verif.Group Verif.Edw Verif.SpecEd Verif.EdCurve Verif.ModelECDSA Verif.ModelSlp Verif.ModelEdCode Verif.ModelEd Verif.ModelEdDSA.
Require Import Verif.ProofSlp Verif.ProofEdF Verif.ProofEdG Verif.ProofEdC Verif.ProofEdN Verif.ProofEdT Verif.ProofEdM Verif.ProofEdR.
Import ListNotations.
Open Scope Z_scope.
Lemma Kf25s : field_theory (fz 0) (fz 1) fp_add fp_mul fp_sub fp_opp fp_div fp_inv (@eq F25).
Proof. exact Kf25. Qed.
Add Field KF25s : Kf25s.

(** ** Comparisons *)
Lemma ct_eq_iff a b : ct_eq a b = true <-> a = b.
Proof. unfold ct_eq. destruct (list_eq_dec Z.eq_dec a b); split; congruence. Qed.
Lemma map2_lxor_ok : forall a b, bytes_ok a -> bytes_ok b -> bytes_ok (map2 Z.lxor a b).
Proof.
  induction a as [|x a IH]; intros [|y b] Ha Hb; try (now constructor). inversion Ha; inversion Hb; subst.
  cbn [map2]. constructor; [|now apply IH]. unfold byte_ok in *. apply (lxor_bound 8); lia.
Qed.
Lemma cv32_zero a b : length a = length b -> bytes_ok a -> bytes_ok b -> (cryptoVerify32 a b = 0 <-> a = b).
Proof.
  intros HL Ha Hb. unfold cryptoVerify32. pose proof (map2_lxor_ok a b Ha Hb) as Hm.
  destruct (or_zero _ 0 ltac:(lia) Hm) as [_ ->]. split; [intros [_ E]|intros ->; split; [reflexivity|]].
  - revert b HL Hb Hm E. induction a as [|x a IH]; intros [|y b] HL Hb Hm E; try discriminate HL; [reflexivity|].
    inversion Ha; inversion Hb; inversion Hm; subst. cbn [map2 le2z] in E. unfold byte_ok in *.
    pose proof (le2z_nonneg (map2 Z.lxor a b) ltac:(assumption)) as N.
    assert (E1 : Z.lxor x y = 0) by lia. assert (E2 : le2z (map2 Z.lxor a b) = 0) by lia.
    f_equal; [now apply Z.lxor_eq|apply IH; auto].
  - clear. induction b as [|y b IH]; [reflexivity|]. cbn [map2 le2z]. rewrite Z.lxor_nilpotent, IH. reflexivity.
Qed.
Lemma cv32_range a b : bytes_ok a -> bytes_ok b -> 0 <= cryptoVerify32 a b < 256.
Proof. intros Ha Hb. exact (proj1 (or_zero _ 0 ltac:(lia) (map2_lxor_ok a b Ha Hb))). Qed.
Lemma cv32ref_zero a b : length a = length b -> bytes_ok a -> bytes_ok b -> (cryptoVerify32Ref a b = 0 <-> a = b).
Proof.
  intros HL Ha Hb. rewrite <- (cv32_zero a b HL Ha Hb). pose proof (cv32_range a b Ha Hb) as R. unfold cryptoVerify32Ref.
  set (d := cryptoVerify32 a b) in *. clearbody d. rewrite Z.shiftr_div_pow2 by lia. change (2 ^ 8) with 256.
  assert (d = 0 \/ 1 <= d) as [->|P] by lia; [split; reflexivity|].
  rewrite Z.div_small by lia. cbn. lia.
Qed.

(** ** Points *)
Lemma mulB_on k : ed_on (ed_mul k ed_B). Proof. apply ed_mul_on, ed_B_on. Qed.
Lemma ed_mul_mod n k P : ed_on P -> ed_mul n P = ed_zero -> ed_mul (k mod n) P = ed_mul k P.
Proof. exact (zmul_mod _ _ _ _ _ ed_group n k P). Qed.
Lemma ed_mul_inj n j k P : ed_on P -> prime n -> ed_mul n P = ed_zero -> P <> ed_zero -> ed_mul j P = ed_mul k P -> j mod n = k mod n.
Proof. exact (zmul_inj _ _ _ _ _ ed_group n j k P). Qed.
Lemma ed_mul_mul j k P : ed_on P -> ed_mul (j * k) P = ed_mul j (ed_mul k P).
Proof. exact (zmul_mul _ _ _ _ _ ed_group j k P). Qed.
Lemma ed_mul_sub j k P : ed_on P -> ed_mul (j - k) P = ed_add (ed_mul j P) (ed_neg (ed_mul k P)).
Proof. exact (zmul_sub _ _ _ _ _ ed_group j k P). Qed.
Lemma ed_mul_negp k P : ed_on P -> ed_mul k (ed_neg P) = ed_neg (ed_mul k P).
Proof. exact (zmul_negp _ _ _ _ _ ed_group k P). Qed.
Lemma ed_add_comm P Q : ed_on P -> ed_on Q -> ed_add P Q = ed_add Q P.
Proof. exact (g_comm _ _ _ _ _ ed_group P Q). Qed.
Lemma mulB_mod k : ed_mul (k mod ed_L) ed_B = ed_mul k ed_B.
Proof. apply ed_mul_mod; [exact ed_B_on|exact ed_order]. Qed.
Lemma mulB_inj j k : ed_mul j ed_B = ed_mul k ed_B <-> j mod ed_L = k mod ed_L.
Proof.
  split; intros E.
  - apply (ed_mul_inj ed_L j k ed_B ed_B_on prime_L ed_order ed_B_ne E).
  - rewrite <- (mulB_mod j), E. apply mulB_mod.
Qed.
Lemma ed_neg_on P : ed_on P -> ed_on (ed_neg P).
Proof. exact (g_neg _ _ _ _ _ ed_group P). Qed.

(** the encoding determines the point *)
Lemma ed_enc_inj P Q : ed_enc P = ed_enc Q -> ed_on P -> ed_on Q -> P = Q.
Proof.
  intros E HP HQ. assert (V : le2z (ed_enc P) = le2z (ed_enc Q)) by now rewrite E. rewrite !ed_enc_val in V.
  destruct P as [x y], Q as [x' y']. cbn [fst snd] in V.
  pose proof (fval255 y) as B1. pose proof (fval255 y') as B2. pose proof (Z.mod_pos_bound (fval x) 2 ltac:(lia)) as M1. pose proof (Z.mod_pos_bound (fval x') 2 ltac:(lia)) as M2.
  assert (V1 : fval y = fval y') by lia. assert (V2 : fval x mod 2 = fval x' mod 2) by lia.
  assert (y = y') as <- by (rewrite <- (fp_of_val _ y), <- (fp_of_val _ y'); congruence).
  destruct (on_same_y _ _ _ HP HQ) as [->|X]; [reflexivity|].
  destruct (fp_dec x' (fz 0)) as [Z0|Z0]; [rewrite X, Z0; f_equal; ring|].
  exfalso. rewrite X, (parity_opp _ Z0) in V2. lia.
Qed.
Lemma ed_dec_enc P : ed_on P -> ed_dec (ed_enc P) P.
Proof.
  intros Ho. split; [exact Ho|]. rewrite ed_enc_val. destruct P as [x y]. cbn [fst snd].
  pose proof (fval255 y) as B1. pose proof (Z.mod_pos_bound (fval x) 2 ltac:(lia)) as B2.
  rewrite Z.mul_comm, Z.mod_add, Z.div_add, Z.div_small, Z.mod_small by lia. rewrite Z.add_0_l, fp_of_val. auto.
Qed.
Lemma ed_dec_unique s P Q : ed_dec s P -> ed_dec s Q -> P = Q.
Proof.
  destruct P as [x y], Q as [x' y']. intros (P1 & P2 & P3) (Q1 & Q2 & Q3). cbn [fst snd] in *. subst y'. subst y.
  destruct (on_same_y _ _ _ P1 Q1) as [->|X]; [reflexivity|].
  destruct (fp_dec x' (fz 0)) as [Z0|Z0]; [rewrite X, Z0; f_equal; ring|].
  exfalso. destruct Q3 as [Q3|Q3]; [|contradiction]. destruct P3 as [P3|P3].
  - rewrite X, (parity_opp _ Z0) in P3. lia.
  - apply Z0. transitivity (fp_opp x); [rewrite X; ring|]. rewrite P3. ring.
Qed.
Lemma neg_rep q P : ext_rep 2 q P -> ext_rep 2 (mkext (FeNeg (eX q)) (eY q) (eZ q) (FeNeg (eT q))) (ed_neg P).
Proof.
  intros (z & N & A & B & C & D). destruct P as [x y]. exists z. cbn [eX eY eZ eT fst snd ed_neg e_neg] in *.
  split; [exact N|]. split; [eapply rep_eq; [apply rep_neg; [exact A|lia]|ring]|]. split; [exact B|]. split; [exact C|].
  eapply rep_eq; [apply rep_neg; [exact D|lia]|ring].
Qed.

(** ** Clamping *)
Definition all256 (f : Z -> bool) : bool := forallb (fun n => f (Z.of_nat n)) (seq 0 256).
Lemma all256_ok f x : all256 f = true -> 0 <= x < 256 -> f x = true.
Proof.
  intros H Hx. unfold all256 in H. rewrite forallb_forall in H. specialize (H (Z.to_nat x) ltac:(apply in_seq; lia)). now rewrite Z2Nat.id in H by lia.
Qed.
Lemma byte248 x : 0 <= x < 256 -> Z.land x 248 = 8 * (x / 8).
Proof. intros H. apply Z.eqb_eq. apply (all256_ok (fun x => Z.land x 248 =? 8 * (x / 8))); [vm_compute; reflexivity|exact H]. Qed.
Lemma byte64 b x : b = 63 \/ b = 127 -> 0 <= x < 256 -> Z.lor (Z.land x b) 64 = 64 + x mod 64.
Proof.
  intros [-> | ->] H; apply Z.eqb_eq.
  - apply (all256_ok (fun x => Z.lor (Z.land x 63) 64 =? 64 + x mod 64)); [vm_compute; reflexivity|exact H].
  - apply (all256_ok (fun x => Z.lor (Z.land x 127) 64 =? 64 + x mod 64)); [vm_compute; reflexivity|exact H].
Qed.
Lemma ends32 (h : bytes) : length h = 32%nat -> exists a m z, h = a :: m ++ [z] /\ length m = 30%nat.
Proof.
  intros H. destruct h as [|a h]; [discriminate H|]. injection H as H.
  destruct (exists_last (l := h)) as (m & z & ->); [intros ->; discriminate H|]. exists a, m, z. split; [reflexivity|].
  rewrite app_length in H. cbn in H. lia.
Qed.
Lemma upd_app_last (m : list Z) z v : upd (length m) v (m ++ [z]) = m ++ [v].
Proof. induction m as [|x m IH]; [reflexivity|]. cbn. now rewrite IH. Qed.
Lemma nth_app_last (m : list Z) z : nth (length m) (m ++ [z]) 0 = z.
Proof. induction m as [|x m IH]; [reflexivity|]. cbn. exact IH. Qed.
Lemma upd_S i v x (l : list Z) : upd (S i) v (x :: l) = x :: upd i v l.
Proof. reflexivity. Qed.
Lemma nth_S i x (l : list Z) : nth (S i) (x :: l) 0 = nth i l 0.
Proof. reflexivity. Qed.
Lemma clamp_shape b a m z : length m = 30%nat ->
  clamp b (a :: m ++ [z]) = Z.land a 248 :: m ++ [Z.lor (Z.land z b) 64].
Proof.
  intros H. unfold clamp. cbv zeta. change 31%nat with (S 30). rewrite <- H.
  change (upd 0 (Z.land (nth 0 (a :: m ++ [z]) 0) 248) (a :: m ++ [z])) with (Z.land a 248 :: m ++ [z]).
  rewrite !nth_S, !upd_S, nth_S, !nth_app_last, !upd_app_last. rewrite nth_app_last. reflexivity.
Qed.
Lemma clamp_ok b h : b = 63 \/ b = 127 -> length h = 32%nat -> bytes_ok h ->
  length (clamp b h) = 32%nat /\ bytes_ok (clamp b h) /\ le2z (clamp b h) = ed_clamp h /\ ed_clamp h < 2 ^ 255.
Proof.
  intros Hb HL HB. assert (LT : ed_clamp h < 2 ^ 255).
  { unfold ed_clamp. pose proof (Z.mod_pos_bound (le2z h / 8) (2 ^ 251) ltac:(reflexivity)). lia. }
  destruct (ends32 h HL) as (a & m & z & -> & Hm). rewrite clamp_shape by exact Hm.
  inversion HB as [|a' t' Ha Ht]; subst. apply Forall_app in Ht. destruct Ht as [Hmo Hz]. inversion Hz as [|z' t'' Hz' _]; subst. clear HB Hz.
  unfold byte_ok in Ha, Hz'. rewrite (byte248 a Ha), (byte64 b z Hb Hz').
  split; [cbn [length]; rewrite app_length; cbn [length]; lia|]. split.
  - constructor; [unfold byte_ok; lia|]. apply Forall_app. split; [exact Hmo|]. constructor; [unfold byte_ok; lia|constructor].
  - split; [|exact LT]. unfold ed_clamp. cbn [le2z]. rewrite !le2z_app, Hm. cbn [le2z].
    rewrite !Z.mul_0_r, !Z.add_0_r.
    pose proof (le2z_bound m Hmo) as Bm. rewrite Hm in Bm. set (M := le2z m) in *. clearbody M.
    change (256 ^ Z.of_nat 30) with (2 ^ 240) in *. clear -Ha Hz' Bm.
    assert (E : (a + 256 * (M + 2 ^ 240 * z)) / 8 = a / 8 + 32 * M + 2 ^ 245 * (z mod 64) + (z / 64) * 2 ^ 251) by lia.
    rewrite E, Z.mod_add by discriminate. rewrite (Z.mod_small _ (2 ^ 251)) by lia. lia.
Qed.

Lemma L_lt : ed_L < 2 ^ 253. Proof. reflexivity. Qed.
Lemma base_enc a : bytes_ok a -> length a = 32%nat -> le2z a < 2 ^ 255 -> ext_tobytes (GeScalarMultBase a) = ed_enc (ed_mul (le2z a) ed_B).
Proof.
  intros H1 H2 H3. apply (ext_tobytes_ok 1); [lia|]. now apply GeScalarMultBase_ok.
Qed.

Lemma land224 sig : length sig = 64%nat -> bytes_ok sig -> (Z.land (nth 63 sig 0) 224 = 0 <-> le2z (skipn 32 sig) < 2 ^ 253).
Proof.
  intros HL HB. assert (L : length (skipn 32 sig) = 32%nat) by (rewrite skipn_length, HL; reflexivity).
  assert (N : nth 63 sig 0 = nth 31 (skipn 32 sig) 0). { rewrite <- (firstn_skipn 32 sig) at 1. rewrite app_nth2; rewrite firstn_length, HL; [reflexivity|cbn; lia]. }
  assert (B : bytes_ok (skipn 32 sig)) by now apply bytes_ok_skipn.
  rewrite N. destruct (ends32 _ L) as (a & m & z & E & Hm). rewrite E in *. change 31%nat with (S 30). cbn [nth]. rewrite <- Hm, nth_app_last.
  inversion B as [|a' t' Ha Ht]; subst. apply Forall_app in Ht. destruct Ht as [Hmo Hz]. inversion Hz as [|z' t'' Hz' _]; subst. unfold byte_ok in *.
  cbn [le2z]. rewrite !le2z_app, Hm. cbn [le2z]. rewrite !Z.mul_0_r, !Z.add_0_r.
  pose proof (le2z_bound m Hmo) as Bm. rewrite Hm in Bm. set (M := le2z m) in *. clearbody M. change (256 ^ Z.of_nat 30) with (2 ^ 240) in *.
  assert (T : Z.land z 224 = 32 * (z / 32)).
  { apply Z.eqb_eq. apply (all256_ok (fun x => Z.land x 224 =? 32 * (x / 32))); [vm_compute; reflexivity|exact Hz']. }
  rewrite T. clear -Ha Hz' Bm. change (2 ^ 253) with (256 * 2 ^ 240 * 32). lia.
Qed.

Lemma ext_frombytes_dec pub : length pub = 32%nat -> bytes_ok pub ->
  (exists A, ext_frombytes pub = (true, snd (ext_frombytes pub)) /\ ed_dec pub A /\ ext_rep 2 (snd (ext_frombytes pub)) A) \/
  (fst (ext_frombytes pub) = false /\ forall A, ~ ed_dec pub A).
Proof.
  intros HL HB. pose proof (ext_frombytes_ok pub HL HB) as H. cbv zeta in H.
  destruct (ext_frombytes pub) as [[|] e]; cbn [fst snd] in *.
  - left. destruct H as (x & H1 & H2 & H3). exists (x, fz (le2z pub mod 2 ^ 255)). split; [reflexivity|]. split; [|exact H2]. split; [exact H1|]. split; [reflexivity|exact H3].
  - right. split; [reflexivity|]. intros [x y] (H1 & H2 & _). cbn [fst snd] in H2. subst y. exact (H x H1).
Qed.

Lemma eqn_point k A S : ed_on A ->
  ed_add (ed_mul (k mod ed_L) (ed_neg A)) (ed_mul S ed_B) = ed_add (ed_mul S ed_B) (ed_neg (ed_mul (k mod ed_L) A)).
Proof.
  intros HA. rewrite ed_add_comm; [|apply ed_mul_on, ed_neg_on, HA|apply mulB_on].
  f_equal. apply ed_mul_negp, HA.
Qed.

Lemma mul_neg_sub j k : ed_add (ed_mul j ed_B) (ed_neg (ed_mul k ed_B)) = ed_mul (j - k) ed_B.
Proof. symmetry. apply ed_mul_sub, ed_B_on. Qed.
Theorem ED25519_genPub_spec key : bytes_ok key -> length key = 32%nat -> le2z key < 2 ^ 255 ->
  ED25519_genPub key = Ok (ed_enc (ed_mul (le2z key) ed_B)).
Proof. intros H1 H2 H3. unfold ED25519_genPub. rewrite H2. cbn [Nat.eqb negb]. f_equal. now apply base_enc. Qed.
Section Proofs.
Variable sha512 : bytes -> bytes.
Hypothesis sha_len : forall m, length (sha512 m) = 64%nat.
Hypothesis sha_ok : forall m, bytes_ok (sha512 m).

Lemma red_ok m : let r := ScReduce (sha512 m) in
  length r = 32%nat /\ bytes_ok r /\ le2z r = le2z (sha512 m) mod ed_L /\ le2z r < 2 ^ 253.
Proof using sha_len sha_ok.
  cbv zeta. destruct (ScReduce_ok (sha512 m) (sha_ok m) (sha_len m)) as (A & B & C). split; [exact A|]. split; [exact B|]. split; [exact C|].
  rewrite C. pose proof (Z.mod_pos_bound (le2z (sha512 m)) ed_L ltac:(reflexivity)) as D. pose proof L_lt. lia.
Qed.
Lemma tail_r H esk pub msg : bytes_ok H -> length H = 64%nat -> bytes_ok esk -> length esk = 32%nat ->
  let r := ScReduce H in
  let R := ext_tobytes (GeScalarMultBase r) in
  R ++ ScMulAdd (ScReduce (sha512 (R ++ pub ++ msg))) esk r = ed_sig_r sha512 (le2z H) (le2z esk) pub msg.
Proof using sha_len sha_ok.
  intros HB HL H1 H2. cbv zeta. unfold ed_sig_r. cbv zeta.
  destruct (ScReduce_ok H HB HL) as (A & B & C).
  assert (D : le2z (ScReduce H) < 2 ^ 253).
  { rewrite C. pose proof (Z.mod_pos_bound (le2z H) ed_L ltac:(reflexivity)) as D. pose proof L_lt. lia. }
  set (r' := ScReduce H) in *. rewrite (base_enc r') by (assumption || lia). rewrite C, mulB_mod.
  set (R := ed_enc (ed_mul (le2z H) ed_B)). f_equal.
  destruct (red_ok (R ++ pub ++ msg)) as (A' & B' & C' & D').
  set (k' := ScReduce (sha512 (R ++ pub ++ msg))) in *.
  destruct (ScMulAdd_ok k' esk r' B' A' H1 H2 B A) as (L1 & L2 & L3).
  transitivity (z2le 32 (le2z (ScMulAdd k' esk r'))); [rewrite <- L1; symmetry; now apply z2le_le2z|]. f_equal. rewrite L3, C, C'.
  rewrite Zplus_mod_idemp_r, Zplus_mod, Zmult_mod_idemp_l, <- Zplus_mod. f_equal. ring.
Qed.
Theorem sign_tail_spec esk pub prefix msg : bytes_ok esk -> length esk = 32%nat ->
  sign_tail sha512 esk pub prefix msg = ed_sig sha512 (le2z esk) prefix pub msg.
Proof using sha_len sha_ok.
  intros H1 H2. exact (tail_r (sha512 (prefix ++ msg)) esk pub msg (sha_ok _) (sha_len _) H1 H2).
Qed.

Theorem CURVE25519_genPub_spec key : length key = 32%nat -> CURVE25519_genPub sha512 key = Ok (ed_pub sha512 key).
Proof using sha_len sha_ok.
  intros HL. unfold CURVE25519_genPub. rewrite HL. cbn [Nat.eqb negb]. f_equal.
  assert (L32 : length (firstn 32 (sha512 key)) = 32%nat) by (rewrite firstn_length, sha_len; reflexivity).
  assert (B32 : bytes_ok (firstn 32 (sha512 key))) by (apply bytes_ok_firstn, sha_ok).
  destruct (clamp_ok 127 _ ltac:(now right) L32 B32) as (A & B & C & D). rewrite base_enc by (try assumption; now rewrite C). rewrite C. reflexivity.
Qed.
Theorem CURVE25519_sign_spec key msg : length key = 32%nat -> CURVE25519_sign sha512 key msg = Ok (ed_sign sha512 key msg).
Proof using sha_len sha_ok.
  intros HL. unfold CURVE25519_sign. rewrite CURVE25519_genPub_spec by exact HL. cbv zeta. f_equal.
  assert (L32 : length (firstn 32 (sha512 key)) = 32%nat) by (rewrite firstn_length, sha_len; reflexivity).
  assert (B32 : bytes_ok (firstn 32 (sha512 key))) by (apply bytes_ok_firstn, sha_ok).
  destruct (clamp_ok 63 _ ltac:(now left) L32 B32) as (A & B & C & D). rewrite sign_tail_spec by assumption. rewrite C. reflexivity.
Qed.

(** ** Verification *)
(** the multiple of A is taken with the hash reduced modulo L, which matters
    only if A has a component outside the subgroup of order L *)
Definition ed_eqn_red (A : ed_pt) (pub msg sig : bytes) : Prop :=
  ed_enc (ed_add (ed_mul (le2z (skipn 32 sig)) ed_B)
            (ed_neg (ed_mul (le2z (sha512 (firstn 32 sig ++ pub ++ msg)) mod ed_L) A))) = firstn 32 sig.

Theorem eddsa_verify_iff pub msg sig : bytes_ok pub -> bytes_ok sig ->
  (eddsa_verify sha512 pub msg sig = true <->
   length pub = 32%nat /\ length sig = 64%nat /\ le2z (skipn 32 sig) < 2 ^ 253 /\
   exists A, ed_dec pub A /\ ed_eqn_red A pub msg sig).
Proof using sha_len sha_ok.
  intros HP HS. unfold eddsa_verify.
  destruct (Nat.eqb_spec (length pub) 32) as [LP|LP]; cbn [negb]; [|split; [discriminate|intros (X & _); contradiction]].
  destruct (Nat.eqb_spec (length sig) 64) as [LS|LS]; cbn [negb orb]; [|split; [discriminate|intros (_ & X & _); contradiction]].
  destruct (Z.eqb_spec (Z.land (nth 63 sig 0) 224) 0) as [T|T]; cbn [negb].
  2:{ split; [discriminate|]. intros (_ & _ & X & _). exfalso. apply T. now apply land224. }
  rewrite (land224 sig LS HS) in T.
  destruct (ext_frombytes_dec pub LP HP) as [(A & E & D & R)|[E D]].
  2:{ destruct (ext_frombytes pub) as [b e]. cbn [fst] in E. subst b. cbn [negb]. split; [discriminate|]. intros (_ & _ & _ & A & DA & _). exfalso. exact (D A DA). }
  rewrite E. cbn [negb]. set (q := snd (ext_frombytes pub)) in *. clearbody q. cbv zeta.
  destruct (red_ok (firstn 32 sig ++ pub ++ msg)) as (h1 & h2 & h3 & h4).
  assert (LB : length (skipn 32 sig) = 32%nat) by (rewrite skipn_length, LS; reflexivity).
  assert (OA : ed_on A) by exact (proj1 D).
  pose proof (GeDoubleScalarMultVartime_ok 2 (ScReduce (sha512 (firstn 32 sig ++ pub ++ msg))) _ _ (skipn 32 sig) ltac:(lia)
     (ed_neg_on A OA) (neg_rep q A R) h2 h1 ltac:(lia) (bytes_ok_skipn 32 sig HS) LB ltac:(lia)) as G.
  rewrite h3, (eqn_point _ _ _ OA) in G. rewrite (proj_tobytes_ok 1 _ _ ltac:(lia) G). rewrite ct_eq_iff.
  split.
  - intros H. repeat split; try assumption. exists A. split; [exact D|]. symmetry. exact H.
  - intros (_ & _ & _ & A' & D' & H). rewrite (ed_dec_unique _ _ _ D D'). symmetry. exact H.
Qed.

Lemma sig_parts r a pub msg :
  let R := ed_enc (ed_mul r ed_B) in
  let k := le2z (sha512 (R ++ pub ++ msg)) in
  let sig := ed_sig_r sha512 r a pub msg in
  firstn 32 sig = R /\ le2z (skipn 32 sig) = (r + k * a) mod ed_L /\ length sig = 64%nat /\ bytes_ok sig.
Proof using All.
  cbv zeta. unfold ed_sig_r. cbv zeta. set (R := ed_enc (ed_mul r ed_B)).
  assert (LR : length R = 32%nat) by apply ed_enc_length.
  assert (F : firstn 32 (R ++ z2le 32 ((r + le2z (sha512 (R ++ pub ++ msg)) * a) mod ed_L)) = R).
  { rewrite <- LR at 1. rewrite firstn_app, firstn_all, Nat.sub_diag. cbn [firstn]. apply app_nil_r. }
  split; [exact F|]. split; [|split].
  - rewrite <- LR at 1. rewrite skipn_app, skipn_all, Nat.sub_diag. cbn [skipn app]. rewrite le2z_z2le. apply Z.mod_small.
    pose proof (Z.mod_pos_bound (r + le2z (sha512 (R ++ pub ++ msg)) * a) ed_L ltac:(reflexivity)) as D. pose proof L_lt.
    change (256 ^ Z.of_nat 32) with (2 ^ 256). lia.
  - rewrite app_length, LR, z2le_length. reflexivity.
  - apply Forall_app. split; [apply ed_enc_ok|apply z2le_ok].
Qed.

(** a signature made with the scalar a, checked under the public key cB *)
Theorem sign_verify_iff r a c msg : let pub := ed_enc (ed_mul c ed_B) in
  let sig := ed_sig_r sha512 r a pub msg in
  let k := le2z (sha512 (firstn 32 sig ++ pub ++ msg)) in
  eddsa_verify sha512 pub msg sig = true <-> (k * (a - c)) mod ed_L = 0.
Proof using sha_len sha_ok.
  intros pub sig k. destruct (sig_parts r a pub msg) as (S1 & S2 & S3 & S4). fold sig in S1, S2, S3, S4.
  rewrite eddsa_verify_iff by (apply ed_enc_ok || exact S4).
  assert (K : (r + k * a) mod ed_L = le2z (skipn 32 sig)).
  { unfold k. rewrite S1, S2. reflexivity. }
  assert (EQ : ed_eqn_red (ed_mul c ed_B) pub msg sig <-> (k * (a - c)) mod ed_L = 0).
  { unfold ed_eqn_red. fold k. rewrite <- K, mulB_mod.
    assert (M : ed_mul (k mod ed_L) (ed_mul c ed_B) = ed_mul (k * c) ed_B).
    { rewrite <- ed_mul_mul by exact ed_B_on. rewrite <- mulB_mod, Zmult_mod_idemp_l. apply mulB_mod. }
    rewrite M, mul_neg_sub, S1. split.
    - intros E. apply ed_enc_inj in E; [|apply mulB_on|apply mulB_on]. apply mulB_inj in E.
      replace (k * (a - c)) with (r + k * a - k * c - r) by ring. rewrite Zminus_mod, E, Z.sub_diag. reflexivity.
    - intros E. f_equal. apply mulB_inj. replace (r + k * a - k * c) with (r + k * (a - c)) by ring.
      rewrite Zplus_mod, E, Z.add_0_r, Z.mod_mod by discriminate. reflexivity. }
  rewrite <- EQ. split.
  - intros (_ & _ & _ & A & D & E). rewrite (ed_dec_unique _ _ _ (ed_dec_enc _ (mulB_on c)) D). exact E.
  - intros E. split; [apply ed_enc_length|]. split; [exact S3|]. split.
    + rewrite <- K. pose proof (Z.mod_pos_bound (r + k * a) ed_L ltac:(reflexivity)). pose proof L_lt. lia.
    + exists (ed_mul c ed_B). split; [apply ed_dec_enc, mulB_on|exact E].
Qed.

Theorem CURVE25519_roundtrip key msg : eddsa_verify sha512 (ed_pub sha512 key) msg (ed_sign sha512 key msg) = true.
Proof using sha_len sha_ok.
  unfold ed_sign, ed_pub, ed_sig. apply sign_verify_iff. rewrite Z.sub_diag, Z.mul_0_r. reflexivity.
Qed.

(** ** The raw-scalar functions *)
Theorem ED25519_sign_spec rnd key msg : bytes_ok key -> length key = 32%nat -> le2z key < 2 ^ 255 ->
  ED25519_sign sha512 rnd key msg = Ok (ed_sig sha512 (ed_clamp key) rnd (ed_enc (ed_mul (le2z key) ed_B)) msg).
Proof using sha_len sha_ok.
  intros H1 H2 H3. unfold ED25519_sign. rewrite ED25519_genPub_spec by assumption. rewrite H2. cbn [Nat.eqb negb]. f_equal.
  destruct (clamp_ok 63 key ltac:(now left) H2 H1) as (A & B & C & D). rewrite sign_tail_spec by assumption. now rewrite C.
Qed.
End Proofs.
