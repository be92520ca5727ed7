(** Signatures of CURVE25519_SHA256 (curve25519_sha256.go). *)
Require Import ZArith List Lia Bool Field.
Require Import Verif.Base Verif.Words Verif.Fp Verif.Group Verif.SpecEd Verif.SpecCsha Verif.EdCurve Verif.ProofEdF Verif.ProofEdG Verif.ProofEdC Verif.ProofEdX Verif.ProofEdS.
Require Import Verif.ModelECDSA Verif.ModelCsha Verif.ProofCshaF Verif.ProofCshaG Verif.ProofCshaW Verif.ProofCshaB Verif.ProofCshaS Verif.ProofCshaX Verif.ProofCshaV Verif.PropsCsha.
Import ListNotations.
Open Scope Z_scope.

(** ** Clamped scalars and the order *)
Lemma clamp_form key : exists c, ed_clamp key = 8 * c /\ 2 ^ 251 <= c < 2 ^ 252.
Proof.
  exists (2 ^ 251 + (le2z key / 8) mod 2 ^ 251). pose proof (Z.mod_pos_bound (le2z key / 8) (2 ^ 251) ltac:(reflexivity)) as B. unfold ed_clamp.
  change (2 ^ 252) with (2 ^ 251 + 2 ^ 251). change (2 ^ 254) with (8 * 2 ^ 251). lia.
Qed.
Local Transparent ed_L.
Lemma res_case k c r : k = 8 * c -> 2 ^ 251 <= c < 2 ^ 252 -> r = -1 \/ r = 0 \/ r = 1 -> (k - r) mod ed_L = 0 -> r = -1 /\ k = 5 * ed_L - 1.
Proof.
  intros E B R M. apply Z.mod_divide in M; [|discriminate]. destruct M as [m M]. change ed_L with 7237005577332262213973186563042994240857116359379907606001950938285454250989 in *.
  change (2 ^ 251) with 3618502788666131106986593281521497120414687020801267626233049500247285301248 in B. change (2 ^ 252) with 7237005577332262213973186563042994240829374041602535252466099000494570602496 in B.
  assert (C : m = 3 \/ m = 4 \/ m = 5 \/ m = 6 \/ m = 7 \/ m = 8) by lia. lia.
Qed.
Local Opaque ed_L.
Lemma clamp_res key : ed_clamp key mod ed_L <> 0 /\ (ed_clamp key - 1) mod ed_L <> 0 /\ ((ed_clamp key + 1) mod ed_L = 0 -> ed_clamp key = 5 * ed_L - 1).
Proof.
  destruct (clamp_form key) as (c & E & B). split; [|split].
  - intros M. rewrite <- (Z.sub_0_r (ed_clamp key)) in M. destruct (res_case _ c 0 E B ltac:(auto) M). discriminate.
  - intros M. destruct (res_case _ c 1 E B ltac:(auto) M). discriminate.
  - intros M. replace (ed_clamp key + 1) with (ed_clamp key - -1) in M by lia. apply (res_case _ c (-1) E B ltac:(auto) M).
Qed.
Lemma clamp_lt key : ed_clamp key < 8 * ed_L.
Proof. destruct (clamp_form key) as (c & E & B). apply Z.lt_trans with (2 ^ 255); [|exact L8]. rewrite E. change (2 ^ 255) with (8 * 2 ^ 252). lia. Qed.

Lemma Keygen_ok key : bytes_ok key -> length key = 32%nat ->
  exists s, cs_Keygen key = (z2le 32 (ed_clamp key), cs_pack (cs_core_x s), cs_core_s (cs_clamp key) s) /\ lad (ed_clamp key) s.
Proof.
  intros O L. destruct (clamp_val key L O) as (V & OB & OL). pose proof (ladder_ok _ OB OL) as LD. rewrite V in LD.
  exists (cs_ladder (cs_set 9) (cs_clamp key)). split; [|exact LD]. unfold cs_Keygen. cbv zeta. now rewrite <- (proj1 (cs_clamp_ok key L O)).
Qed.
Lemma core_x_pack k s : lad k s -> fval (mont_u (snd (ed_mul k ed_B))) < p25 - 19 -> cs_pack (cs_core_x s) = csha_u (ed_mul k ed_B).
Proof. intros [L0 _] B. unfold cs_core_x. destruct s as [s0 s1]. cbn [fst] in L0. exact (cr_pack_small _ _ (mrep_u _ _ L0) B). Qed.
(** s exists for every key, with or without the right sign *)
Lemma core_s_total k s : bytes_ok k -> length k = 32%nat -> 0 <= le2z k < 8 * ed_L -> le2z k mod ed_L <> 0 ->
  exists S, cs_core_s k s = Some (z2le 32 S) /\ 0 <= S < ed_L.
Proof.
  intros O L K8 N0.
  assert (E : cs_core_s k s = s_of (if negb (s_test s =? 0) then k else fst (mulaSmall (repeat 0 32) cs_orderTimes8 0 k 32 (-1)))) by (destruct s; reflexivity).
  rewrite E. clear E. destruct (negb (s_test s =? 0)).
  - destruct (s_of_ok k O L N0) as (S & ES & BS & _). exists S. split; [exact ES|lia].
  - destruct (mulaSmall (repeat 0 32) cs_orderTimes8 0 k 32 (-1)) as [a c] eqn:EA. cbn [fst].
    destruct (mulaSmall32 _ _ _ _ a c (repeat_length 0 32) order8_len L EA) as (La & Oa & Va).
    destruct L_facts as (F1 & F2 & _).
    assert (VA : le2z a = 8 * ed_L - le2z k). { rewrite Va, order8_val. rewrite Z.mod_small by lia. lia. }
    assert (NA : le2z a mod ed_L <> 0).
    { rewrite VA. intros Z. apply N0. replace (le2z k) with (8 * ed_L - (8 * ed_L - le2z k)) by lia. rewrite Zminus_mod, Z, Z.mod_mul, Z.sub_0_r by lia. apply Z.mod_0_l. lia. }
    destruct (s_of_ok a Oa La NA) as (S & ES & BS & _). exists S. split; [exact ES|lia].
Qed.
Lemma e_even k : k mod ed_L <> 0 -> Z.even (fval (mont_w (ed_mul (csha_e k) ed_B))) = true.
Proof.
  intros N. unfold csha_e. destruct (Z.even (fval (mont_w (ed_mul k ed_B)))) eqn:E; [exact E|].
  unfold ed_mul at 1. rewrite (zmul_neg _ _ _ _ _ ed_group _ _ ed_B_on). fold (ed_mul k ed_B). rewrite mw_neg.
  pose proof (mulB_on k) as O. pose proof (mulB_ne k N) as NZ. pose proof (w_ne _ O (sub_x0 _ O (mulB_L k) NZ) (sub_y _ O NZ)) as W.
  pose proof (odd_opp _ W) as Q. rewrite E in Q. cbn [negb] in Q. rewrite Zeven_mod. apply Zeq_is_eq_bool. apply Z.eqb_eq. exact Q.
Qed.
Lemma e_u k : csha_u (ed_mul (csha_e k) ed_B) = csha_u (ed_mul k ed_B).
Proof.
  unfold csha_e. destruct (Z.even _); [reflexivity|]. unfold ed_mul at 1. rewrite (zmul_neg _ _ _ _ _ ed_group _ _ ed_B_on). fold (ed_mul k ed_B).
  unfold csha_u. now destruct (ed_mul k ed_B).
Qed.

Section Sig.
Variable H : bytes -> bytes.
Hypothesis HL : forall m, length (H m) = 32%nat.
Hypothesis HB : forall m, bytes_ok (H m).

Lemma sign_shape key msg S : bytes_ok key -> length key = 32%nat -> 0 <= S < ed_L -> snd (cs_Keygen key) = Some (z2le 32 S) ->
  let x := csha_nonce H S msg in
  exists Y, (fval (mont_u (snd (ed_mul x ed_B))) < p25 - 19 -> Y = csha_u (ed_mul x ed_B)) /\
    csha_sign H key msg = Some (Ok (z2le 32 (((x - le2z (H (H msg ++ Y))) * S) mod ed_L) ++ H (H msg ++ Y)), z2le 32 (ed_clamp key)).
Proof using HL HB.
  intros O L HS EK x. unfold csha_sign. rewrite L. cbn [Nat.eqb negb]. destruct (Keygen_ok key O L) as (s & EG & LD). rewrite EG in *. cbn [snd] in EK. rewrite EK.
  cbv zeta. destruct (Keygen_ok (H (H msg ++ z2le 32 S)) (HB _) (HL _)) as (s2 & EG2 & LD2). rewrite EG2. fold (csha_nonce H S msg) in LD2 |- *. fold x in LD2 |- *.
  exists (cs_pack (cs_core_x s2)). split; [intros B; now apply core_x_pack|].
  rewrite sign_v by (try apply HB; try apply HL; try apply z2le_ok; try apply z2le_length; exact HS).
  assert (VX : le2z (z2le 32 x) = x).
  { unfold x, csha_nonce. destruct (clamp_val (H (H msg ++ z2le 32 S)) (HL _) (HB _)) as (V & _). rewrite <- (proj1 (cs_clamp_ok _ (HL _) (HB _))). exact V. }
  rewrite VX. reflexivity.
Qed.

(** C79, the signature: an accepted signature has its first half below the order. *)
Theorem C79_csha_verify_order pub msg sig : bytes_ok sig -> csha_verify H pub msg sig = true -> le2z (firstn 32 sig) < ed_L.
Proof using.
  clear HL HB. intros Os. unfold csha_verify. destruct (Nat.eqb_spec (length sig) 64) as [L|]; [|discriminate]. destruct (negb _ || _ || _); [discriminate|].
  destruct (cs_canonical_sig sig) eqn:C; [|discriminate]. intros _. apply (canonical_sig_ok sig (ok_firstn 32 sig Os)); [rewrite L; lia|exact C].
Qed.
(** C80. Signature on CURVE25519_SHA256 gives, for every 32-byte key and every
    message, 64 bytes whose first half is below the order. *)
Theorem C80_csha_sign_total key msg : bytes_ok key -> length key = 32%nat ->
  exists sig, csha_sign H key msg = Some (Ok sig, z2le 32 (ed_clamp key)) /\ length sig = 64%nat /\ bytes_ok sig /\ le2z (firstn 32 sig) < ed_L.
Proof using HL HB.
  intros O L. destruct (clamp_val key L O) as (V & OB & OL). destruct (Keygen_ok key O L) as (s & EG & LD). destruct (clamp_res key) as (N0 & _).
  destruct (core_s_total (cs_clamp key) s OB OL ltac:(split; [apply (val_lt _ OB)|rewrite V; apply clamp_lt]) ltac:(rewrite V; exact N0)) as (S & ES & BS).
  destruct (sign_shape key msg S O L BS ltac:(rewrite EG; exact ES)) as (Y & _ & E). eexists. split; [exact E|]. split; [rewrite app_length, z2le_length, HL; reflexivity|].
  split; [apply ok_app; [apply z2le_ok|apply HB]|].
  assert (F : forall n (a b : bytes), length a = n -> firstn n (a ++ b) = a) by (intros n a b <-; rewrite firstn_app, firstn_all, Nat.sub_diag; apply app_nil_r).
  rewrite F by apply z2le_length. destruct L_facts as (F1 & F2 & F3 & F4 & F6).
  match goal with |- context [z2le 32 (?a mod ed_L)] => pose proof (Z.mod_pos_bound a ed_L ltac:(clear - F1; lia)) as B end.
  rewrite le2z_z2le. fold (bb 32). rewrite Z.mod_small by (clear - B F6; lia). apply B.
Qed.
(** It is the EC-KCDSA signature of the specification, made with the inverse of
    the exponent.  Partial: the key that clamps to 5L - 1 and nonces x with u(xB)
    among the 19 largest residues are left out. *)
Theorem C80_csha_sign_partial key : bytes_ok key -> length key = 32%nat -> ed_clamp key <> 5 * ed_L - 1 ->
  exists s, csha_inverse s (csha_e (ed_clamp key)) /\
    forall msg, fval (mont_u (snd (ed_mul (csha_nonce H s msg) ed_B))) < p25 - 19 ->
      csha_sign H key msg = Some (Ok (csha_sig H s msg), z2le 32 (ed_clamp key)).
Proof using HL HB.
  intros O L K5. destruct (clamp_val key L O) as (V & OB & OL). destruct (Keygen_ok key O L) as (s & EG & LD). destruct (clamp_res key) as (N0 & N1 & N2).
  destruct (core_s_ok (cs_clamp key) s OB OL) as (S & ES & IS); rewrite ?V; try assumption; [apply clamp_lt|intros Z; apply K5; now apply N2|]. rewrite V in IS.
  exists S. split; [exact IS|]. intros msg B. destruct (sign_shape key msg S O L (proj1 IS) ltac:(rewrite EG; exact ES)) as (Y & EY & E). rewrite E, (EY B). reflexivity.
Qed.

(** ** Verify *)
Lemma verify_unfold pub msg sig : length sig = 64%nat -> bytes_ok sig -> length pub = 32%nat -> bytes_ok pub -> msg <> [] ->
  le2z pub < p25 -> le2z (firstn 32 sig) < ed_L ->
  (csha_verify H pub msg sig = true <-> skipn 32 sig = H (H msg ++ cs_Verify (firstn 32 sig) (skipn 32 sig) pub)).
Proof using.
  clear HL HB. intros Ls Os Lp Op NM BP BS. unfold csha_verify. rewrite Ls, Lp. cbn [Nat.eqb negb orb]. destruct msg as [|m0 msg]; [congruence|]. cbn [length Nat.eqb].
  rewrite (proj2 (canonical_sig_ok sig (ok_firstn 32 sig Os) ltac:(rewrite Ls; lia)) BS). cbn [negb].
  rewrite (proj2 (cs_canonical_pub_ok pub Op) ltac:(split; [exact Lp|exact BP])). cbn [negb]. cbv zeta.
  destruct (list_eq_dec Z.eq_dec (skipn 32 sig) _) as [E|E]; split; intros X; try reflexivity; try discriminate; [exact E|contradiction].
Qed.
(** C81. Verify on CURVE25519_SHA256, for a public key that is the u coordinate of
    a point A of the prime-order subgroup (the one of the two with even w): the
    answer is the verification equation of the specification.  Partial: A = B and
    A = -B (public key 9) are left out, and signatures with u(vA + hB) among the
    19 largest residues. *)
Theorem C81_csha_verify_partial A pub msg sig : ed_on A -> ed_mul ed_L A = ed_zero -> A <> ed_zero -> A <> ed_B -> A <> ed_neg ed_B ->
  Z.even (fval (mont_w A)) = true -> pub = csha_u A ->
  length sig = 64%nat -> bytes_ok sig -> msg <> [] -> le2z (firstn 32 sig) < ed_L ->
  fval (mont_u (snd (ed_add (ed_mul (le2z (firstn 32 sig)) A) (ed_mul (le2z (skipn 32 sig)) ed_B)))) < p25 - 19 ->
  (csha_verify H pub msg sig = true <-> csha_accepts H A msg sig).
Proof using.
  clear HL HB. intros HA AL AZ AB ANB EV -> Ls Os NM BS BU.
  assert (VP : le2z (csha_u A) = fval (mont_u (snd A))).
  { unfold csha_u, f25_enc. rewrite le2z_z2le. apply Z.mod_small. pose proof (fval255 (mont_u (snd A))) as F. split; [apply F|]. apply Z.lt_trans with (2 ^ 255); [apply F|reflexivity]. }
  assert (OP : bytes_ok (csha_u A)) by apply z2le_ok. assert (LP : length (csha_u A) = 32%nat) by apply z2le_length.
  rewrite verify_unfold by (assumption || (rewrite VP; apply fval25)). unfold csha_accepts. cbv zeta.
  destruct (Verify_ok A (csha_u A) (firstn 32 sig) (skipn 32 sig) OP LP (ok_firstn 32 sig Os) ltac:(rewrite firstn_length, Ls; reflexivity) (ok_skipn 32 sig Os)
    ltac:(rewrite skipn_length, Ls; reflexivity) HA AL AZ AB ANB EV VP) as (f & EF & CF).
  rewrite EF, (cr_pack_small _ _ CF BU). reflexivity.
Qed.

(** ** Round trip *)
(** C82. What Signature returns, Verify accepts under the key GenPubkey returns,
    for non-empty messages.  Partial: the key that clamps to 5L - 1, and points u
    among the 19 largest residues, are left out. *)
Theorem C82_csha_roundtrip_partial key : bytes_ok key -> length key = 32%nat -> ed_clamp key <> 5 * ed_L - 1 ->
  fval (mont_u (snd (ed_mul (ed_clamp key) ed_B))) < p25 - 19 ->
  exists s, csha_inverse s (csha_e (ed_clamp key)) /\ forall msg, msg <> [] ->
    fval (mont_u (snd (ed_mul (csha_nonce H s msg) ed_B))) < p25 - 19 ->
    exists pub sig k, fst (csha_genPub key) = Ok pub /\ csha_sign H key msg = Some (Ok sig, k) /\ csha_verify H pub msg sig = true.
Proof using HL HB.
  intros O L K5 BK. destruct (C80_csha_sign_partial key O L K5) as (S & [BS IS] & SG). exists S. split; [now split|]. intros msg NM BN.
  destruct (C77_csha_pub_partial key O L) as [EP|[C _]]; [|lia]. specialize (SG msg BN).
  set (k := ed_clamp key) in *. set (x := csha_nonce H S msg) in *. set (h := H (H msg ++ csha_u (ed_mul x ed_B))). set (e := csha_e k) in *.
  exists (csha_u (ed_mul k ed_B)), (csha_sig H S msg), (z2le 32 k). split; [exact EP|]. split; [exact SG|].
  destruct (clamp_res key) as (N0 & N1 & N2). fold k in N0, N1, N2. destruct L_facts as (F1 & F2 & F3 & F4 & F6).
  assert (LZ : ed_L <> 0) by (clear - F1; lia).
  assert (EK : e = k \/ e = - k) by (unfold e, csha_e; destruct (Z.even _); auto).
  assert (NE : forall r, (k - r) mod ed_L <> 0 -> (k + r) mod ed_L <> 0 -> (e - r) mod ed_L <> 0).
  { intros r A1 A2. destruct EK as [->| ->]; [exact A1|]. intros Z. apply A2. apply Z.mod_divide in Z; [|exact LZ]. apply Z.mod_divide; [exact LZ|]. apply Z.divide_opp_r in Z. replace (- (- k - r)) with (k + r) in Z by ring. exact Z. }
  assert (E0 : e mod ed_L <> 0) by (rewrite <- (Z.sub_0_r e); apply NE; rewrite ?Z.sub_0_r, ?Z.add_0_r; exact N0).
  assert (E1 : (e - 1) mod ed_L <> 0) by (apply NE; [exact N1|intros Z; apply K5, N2, Z]).
  assert (E2 : (e - -1) mod ed_L <> 0) by (apply NE; [replace (k - -1) with (k + 1) by ring; intros Z; apply K5, N2, Z|exact N1]).
  set (v := ((x - le2z h) * S) mod ed_L). pose proof (Z.mod_pos_bound ((x - le2z h) * S) ed_L ltac:(clear - F1; lia)) as BV. fold v in BV.
  assert (SIG : csha_sig H S msg = z2le 32 v ++ h) by reflexivity.
  assert (F : forall n (a b : bytes), length a = n -> firstn n (a ++ b) = a /\ skipn n (a ++ b) = b).
  { intros n a b <-. rewrite firstn_app, firstn_all, Nat.sub_diag, skipn_app, skipn_all, Nat.sub_diag. split; [apply app_nil_r|reflexivity]. }
  destruct (F 32%nat (z2le 32 v) h (z2le_length 32 v)) as [FV FH]. rewrite <- SIG in FV, FH.
  assert (VV : le2z (z2le 32 v) = v) by (rewrite le2z_z2le; apply Z.mod_small; fold (bb 32); clear - BV F6; lia).
  assert (PT : ed_add (ed_mul (le2z (firstn 32 (csha_sig H S msg))) (ed_mul e ed_B)) (ed_mul (le2z (skipn 32 (csha_sig H S msg))) ed_B) = ed_mul x ed_B).
  { rewrite FV, FH, VV. unfold ed_mul. rewrite <- (zmul_mul _ _ _ _ _ ed_group _ _ _ ed_B_on), <- (zmul_add _ _ _ _ _ ed_group _ _ _ ed_B_on).
    apply (zmul_congr _ _ _ _ _ ed_group ed_L _ _ _ ed_B_on ord_B). unfold v. rewrite Z.add_mod, Z.mul_mod_idemp_l, <- Z.mul_assoc by exact LZ.
    rewrite (Z.mul_mod (x - le2z h)), IS, Z.mul_1_r, Z.mod_mod, <- Z.add_mod by exact LZ. f_equal. ring. }
  apply (C81_csha_verify_partial (ed_mul e ed_B)).
  - apply mulB_on.
  - apply mulB_L.
  - now apply mulB_ne.
  - intros Z. apply E1, mulB_inj. rewrite Z. unfold ed_mul. now rewrite (zmul_1 _ _ _ _ _ ed_group _ ed_B_on).
  - intros Z. apply E2, mulB_inj. rewrite Z. unfold ed_mul. change (-1) with (Z.opp 1). now rewrite (zmul_neg _ _ _ _ _ ed_group _ _ ed_B_on), (zmul_1 _ _ _ _ _ ed_group _ ed_B_on).
  - now apply e_even.
  - symmetry. apply e_u.
  - rewrite SIG, app_length, z2le_length. unfold h. now rewrite HL.
  - rewrite SIG. apply ok_app; [apply z2le_ok|apply HB].
  - exact NM.
  - rewrite FV, VV. apply BV.
  - rewrite PT. exact BN.
  - unfold csha_accepts. cbv zeta. rewrite PT, FH. reflexivity.
Qed.
(** and never for the empty message, which Signature accepts *)
Theorem C82_csha_empty_refuted key : bytes_ok key -> length key = 32%nat ->
  exists pub sig k, fst (csha_genPub key) = Ok pub /\ csha_sign H key [] = Some (Ok sig, k) /\ csha_verify H pub [] sig = false.
Proof using HL HB.
  intros O L. destruct (C80_csha_sign_total key [] O L) as (sig & E & LS & _). destruct (C77_csha_pub_partial key O L) as [EP|[_ EP]]; eexists; exists sig; eexists; (split; [exact EP|split; [exact E|]]);
  unfold csha_verify; cbn [length]; now rewrite !orb_true_r.
Qed.
End Sig.

(** ** A case that meets the hypotheses: a key that clamps to 6L + 2 (public point
    2B) and a hash whose nonces all clamp to 5L - 1 (nonce point -B, u = 9) *)
Definition u2B : Z := 14847277145635483483963372537557091634710985132825781088887140890597596352251.
Definition y2B : Z := 15549675580280190176352668710449542251549572066445060580507079593062643049417.
Lemma Kf25t : field_theory (fz 0) (fz 1) fp_add fp_mul fp_sub fp_opp fp_div fp_inv (@eq F25).
Proof. exact Kf25. Qed.
Add Field KF25t : Kf25t.
Lemma div_eq (a b c : F25) : (c * b = a)%F -> b <> fz 0 -> (a / b = c)%F.
Proof. intros <- N. field. exact N. Qed.
Local Transparent ed_B.
Lemma y_2B : snd (ed_mul 2 ed_B) = fz y2B.
Proof.
  assert (E : ed_mul 2 ed_B = ed_add ed_B ed_B).
  { change 2 with (2 * 1). unfold ed_mul. rewrite (zmul_double _ _ _ _ _ ed_group _ _ ed_B_on). now rewrite (zmul_1 _ _ _ _ _ ed_group _ ed_B_on). }
  rewrite E. unfold ed_B. rewrite ed_add_y, ed_d_val. apply div_eq.
  - rewrite <- !fp_of_mul, <- fp_of_sub, <- !fp_of_mul, <- fp_of_add. apply fp_of_eq. vm_compute. reflexivity.
  - rewrite <- !fp_of_mul, <- fp_of_sub. apply fz_ne. vm_compute. discriminate.
Qed.
Local Opaque ed_B.
Lemma u_2B : mont_u (snd (ed_mul 2 ed_B)) = fz u2B.
Proof.
  rewrite y_2B. unfold mont_u. apply div_eq.
  - rewrite <- fp_of_sub, <- fp_of_add, <- fp_of_mul. apply fp_of_eq. vm_compute. reflexivity.
  - rewrite <- fp_of_sub. apply fz_ne. vm_compute. discriminate.
Qed.
Lemma mulB_congr j k : j mod ed_L = k mod ed_L -> ed_mul j ed_B = ed_mul k ed_B.
Proof. intros E. exact (zmul_congr _ _ _ _ _ ed_group ed_L _ _ _ ed_B_on ord_B E). Qed.
Lemma mulB_1 : ed_mul 1 ed_B = ed_B. Proof. exact (zmul_1 _ _ _ _ _ ed_group _ ed_B_on). Qed.
Lemma mulB_m1 : ed_mul (Z.opp 1) ed_B = ed_neg ed_B.
Proof. exact (eq_trans (zmul_neg _ _ _ _ _ ed_group 1 _ ed_B_on) (f_equal ed_neg mulB_1)). Qed.
Definition ex_key : bytes := z2le 32 (6 * ed_L + 2).
Definition ex_H (m : bytes) : bytes := z2le 32 (5 * ed_L - 1).
Lemma ex_nonce s m : csha_nonce ex_H s m = 5 * ed_L - 1.
Proof. unfold csha_nonce, ex_H. vm_compute. reflexivity. Qed.
Lemma ex_neg : ed_mul (5 * ed_L - 1) ed_B = ed_neg ed_B.
Proof.
  assert (M : (5 * ed_L - 1) mod ed_L = (Z.opp 1) mod ed_L) by (vm_compute; reflexivity). rewrite (mulB_congr _ _ M). exact mulB_m1.
Qed.
Lemma u9_small : fval (fz 9) < p25 - 19. Proof. vm_compute. reflexivity. Qed.
Lemma ex_nonce_u s m : fval (mont_u (snd (ed_mul (csha_nonce ex_H s m) ed_B))) < p25 - 19.
Proof.
  rewrite ex_nonce, ex_neg. assert (E : snd (ed_neg ed_B) = snd ed_B) by (now destruct ed_B). rewrite E, u_B. exact u9_small.
Qed.
Lemma ex_pub : ed_mul (ed_clamp ex_key) ed_B = ed_mul 2 ed_B.
Proof. apply mulB_congr. vm_compute. reflexivity. Qed.
Lemma u2_small : fval (fz u2B) < p25 - 19. Proof. vm_compute. reflexivity. Qed.
Example C82_example : bytes_ok ex_key /\ length ex_key = 32%nat /\ ed_clamp ex_key <> 5 * ed_L - 1 /\
  fval (mont_u (snd (ed_mul (ed_clamp ex_key) ed_B))) < p25 - 19 /\ (forall m, length (ex_H m) = 32%nat) /\ (forall m, bytes_ok (ex_H m)) /\
  (forall s m, fval (mont_u (snd (ed_mul (csha_nonce ex_H s m) ed_B))) < p25 - 19) /\
  exists pub sig k, fst (csha_genPub ex_key) = Ok pub /\ csha_sign ex_H ex_key [1; 2; 3] = Some (Ok sig, k) /\ csha_verify ex_H pub [1; 2; 3] sig = true.
Proof.
  assert (A1 : bytes_ok ex_key) by apply z2le_ok. assert (A2 : length ex_key = 32%nat) by apply z2le_length.
  assert (A3 : ed_clamp ex_key <> 5 * ed_L - 1) by (vm_compute; discriminate).
  assert (A4 : fval (mont_u (snd (ed_mul (ed_clamp ex_key) ed_B))) < p25 - 19) by (rewrite ex_pub, u_2B; exact u2_small).
  assert (A5 : forall m, length (ex_H m) = 32%nat) by (intros; apply z2le_length). assert (A6 : forall m, bytes_ok (ex_H m)) by (intros; apply z2le_ok).
  split; [exact A1|]. split; [exact A2|]. split; [exact A3|]. split; [exact A4|]. split; [exact A5|]. split; [exact A6|]. split; [exact ex_nonce_u|].
  destruct (C82_csha_roundtrip_partial ex_H A5 A6 ex_key A1 A2 A3 A4) as (s & _ & R). apply R; [discriminate|apply ex_nonce_u].
Qed.
(** the hypotheses of C81 at the public key of 2B and v = 0, h = 1 *)
Example C81_example : exists A sig, ed_on A /\ ed_mul ed_L A = ed_zero /\ A <> ed_zero /\ A <> ed_B /\ A <> ed_neg ed_B /\ Z.even (fval (mont_w A)) = true /\
  length sig = 64%nat /\ bytes_ok sig /\ le2z (firstn 32 sig) < ed_L /\
  fval (mont_u (snd (ed_add (ed_mul (le2z (firstn 32 sig)) A) (ed_mul (le2z (skipn 32 sig)) ed_B)))) < p25 - 19.
Proof.
  exists (ed_mul (csha_e 2) ed_B), (z2le 32 0 ++ z2le 32 1).
  assert (E : csha_e 2 = 2 \/ csha_e 2 = -2) by (unfold csha_e; destruct (Z.even _); auto).
  split; [apply mulB_on|]. split; [apply mulB_L|]. split; [apply mulB_ne; destruct E as [->| ->]; vm_compute; discriminate|].
  split; [|split; [|split; [apply e_even; vm_compute; discriminate|]]].
  - intros Z. assert (M : (csha_e 2 - 1) mod ed_L = 0) by exact (mulB_inj _ _ (eq_trans Z (eq_sym mulB_1))). revert M. destruct E as [->| ->]; vm_compute; discriminate.
  - intros Z. assert (M : (csha_e 2 - (Z.opp 1)) mod ed_L = 0) by exact (mulB_inj _ _ (eq_trans Z (eq_sym mulB_m1))). revert M. destruct E as [->| ->]; vm_compute; discriminate.
  - split; [reflexivity|]. split; [apply ok_app; apply z2le_ok|]. split; [vm_compute; reflexivity|].
    assert (V0 : le2z (firstn 32 (z2le 32 0 ++ z2le 32 1)) = 0) by (vm_compute; reflexivity). assert (V1 : le2z (skipn 32 (z2le 32 0 ++ z2le 32 1)) = 1) by (vm_compute; reflexivity).
    rewrite V0, V1. unfold ed_mul. rewrite zmul_0, (zmul_1 _ _ _ _ _ ed_group _ ed_B_on), (g_0_l _ _ _ _ _ ed_group _ ed_B_on), u_B. exact u9_small.
Qed.

Print Assumptions C79_csha_verify_order.
Print Assumptions C80_csha_sign_total.
Print Assumptions C80_csha_sign_partial.
Print Assumptions C81_csha_verify_partial.
Print Assumptions C82_csha_roundtrip_partial.
Print Assumptions C82_csha_empty_refuted.
