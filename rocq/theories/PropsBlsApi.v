(** Properties C20, C52-C54, C75-C77: hashing and signatures of package
    bls12_381, for every build of the field arithmetic, every pairing and every
    behaviour of the external packages. *)
From Coq Require Import String Ascii ZArith List Bool Lia.
From Verif Require Import Base ModelECDSA ModelApi ModelBlsF ModelBls SpecBlsHash.
Import ListNotations.
Local Open Scope Z_scope.
Local Notation length := List.length.
Local Notation concat := List.concat.
Local Open Scope list_scope.

(** ** C52 *)
Lemma xor_strxor : forall a b, xor_bytes a b = strxor a b.
Proof. intros a b. unfold xor_bytes, strxor. apply map_ext. intros [x y]. reflexivity. Qed.
Lemma I2OSP1 : forall x, 0 <= x < 256 -> I2OSP x 1 = [x].
Proof. intros x Hx. unfold I2OSP, z2be. cbn. rewrite Z.mod_small by lia. reflexivity. Qed.
Lemma I2OSP2 : forall x, I2OSP x 2 = [Z.shiftr x 8 mod 256; x mod 256].
Proof. intros x. unfold I2OSP, z2be. cbn [z2le rev app]. rewrite Z.shiftr_div_pow2 by lia. reflexivity. Qed.

Lemma xmd_blocks_spec : forall H msg dst len n i, (i + n < 255)%nat -> Z.of_nat (length dst) <= 255 ->
  xmd_blocks H n (Z.of_nat i + 1) (b_zero H msg dst len) (b_succ H msg dst len i) (dst ++ [Z.of_nat (length dst) mod 256])
  = map (b_succ H msg dst len) (seq i (S n)).
Proof.
  intros H msg dst len n. induction n as [|n IH]; intros i Hi Hd; [reflexivity|].
  cbn [xmd_blocks seq map]. f_equal.
  replace (Z.of_nat i + 1 + 1) with (Z.of_nat (S i) + 1) by lia.
  rewrite xor_strxor.
  replace (H (strxor (b_zero H msg dst len) (b_succ H msg dst len i) ++ [(1 + (Z.of_nat i + 1)) mod 256] ++ dst ++ [Z.of_nat (length dst) mod 256]))
    with (b_succ H msg dst len (S i)).
  - rewrite IH by lia. reflexivity.
  - cbn [b_succ]. unfold DST_prime. rewrite !I2OSP1 by lia.
    rewrite (Z.mod_small (1 + _)), (Z.mod_small (Z.of_nat (length dst))) by lia.
    replace (1 + (Z.of_nat i + 1)) with (Z.of_nat (S i) + 1) by lia. reflexivity.
Qed.

(** For every hash function: the expansion of the code is that of the RFC, for
    tags up to 255 bytes and the lengths the RFC allows. *)
Theorem C52_expand : forall H msg dst len,
  Z.of_nat (length dst) <= 255 -> 0 < len <= 255 * 32 ->
  expandMsg H msg dst len = Ret (expand_message_xmd H msg dst len).
Proof.
  intros H msg dst len Hd Hl. unfold expandMsg, expand_message_xmd.
  replace (len + 32 - 1) with (len + 31) by lia.
  assert (E : 1 <= (len + 31) / 32 <= 255).
  { split; [apply Z.div_le_lower_bound; lia|]. assert ((len + 31) / 32 < 256) by (apply Z.div_lt_upper_bound; lia). lia. }
  destruct (Z.ltb_spec ((len + 31) / 32) 1) as [X|_]; [lia|].
  set (ell := (len + 31) / 32) in *. clearbody ell.
  f_equal. f_equal. f_equal.
  replace (Z.to_nat ell) with (S (Z.to_nat (ell - 1))) by lia.
  replace 1 with (Z.of_nat 0 + 1) at 2 by reflexivity.
  rewrite <- xmd_blocks_spec by lia.
  assert (Z0 : H (repeat 0 64 ++ msg ++ [Z.shiftr len 8 mod 256; len mod 256] ++ [0] ++ dst ++ [Z.of_nat (length dst) mod 256])
    = b_zero H msg dst len).
  { unfold b_zero, DST_prime. rewrite I2OSP2, !I2OSP1 by lia. rewrite (Z.mod_small (Z.of_nat (length dst))) by lia. reflexivity. }
  rewrite Z0. cbn [b_succ]. unfold DST_prime. rewrite !I2OSP1 by lia. rewrite (Z.mod_small (Z.of_nat (length dst))) by lia. reflexivity.
Qed.
Print Assumptions C52_expand.
Example C52_example : Z.of_nat (length BASIC_SCHEME_DST) <= 255 /\ 0 < 256 <= 255 * 32.
Proof. vm_compute. repeat split; discriminate. Qed.


(** An empty output is a panic. *)
Theorem C52_empty : forall H msg dst, expandMsg H msg dst 0 = Panic.
Proof. reflexivity. Qed.
Print Assumptions C52_empty.

(** ** C53 *)
Definition ascii_bytes (s : string) : bytes := map (fun c => Z.of_nat (nat_of_ascii c)) (list_ascii_of_string s).
Definition tag_NUL : bytes := ascii_bytes "BLS_SIG_BLS12381G2_XMD:SHA-256_SSWU_RO_NUL_"%string.
Definition tag_AUG : bytes := ascii_bytes "BLS_SIG_BLS12381G2_XMD:SHA-256_SSWU_RO_AUG_"%string.
Lemma tag_NUL_eq : BASIC_SCHEME_DST = tag_NUL. Proof. vm_compute. reflexivity. Qed.
Lemma tag_AUG_eq : AUG_SCHEME_DST = tag_AUG. Proof. vm_compute. reflexivity. Qed.
Lemma starts_app : forall d m, starts d (d ++ m) = true.
Proof.
  intros d m. unfold starts. rewrite firstn_app, Nat.sub_diag, firstn_O, app_nil_r, firstn_all.
  induction d as [|x d IH]; [reflexivity|]. cbn [fe_Equals]. rewrite Z.eqb_refl, IH. reflexivity.
Qed.
Lemma hash_NUL : forall m, hash_pair (BASIC_SCHEME_DST ++ m) = Some (m, BASIC_SCHEME_DST).
Proof.
  intros m. unfold hash_pair. rewrite starts_app, skipn_app, Nat.sub_diag, skipn_all, firstn_app, Nat.sub_diag, firstn_all, firstn_O, app_nil_r.
  reflexivity.
Qed.
Lemma hash_AUG : forall m, hash_pair (AUG_SCHEME_DST ++ m) = Some (m, AUG_SCHEME_DST).
Proof.
  intros m. unfold hash_pair. replace (starts BASIC_SCHEME_DST (AUG_SCHEME_DST ++ m)) with false by reflexivity.
  rewrite starts_app, skipn_app, Nat.sub_diag, skipn_all, firstn_app, Nat.sub_diag, firstn_all, firstn_O, app_nil_r.
  reflexivity.
Qed.

(** what GenPubkey returns as the key; nothing for an illegal private key *)
Definition pub_of (B : backends) (k : bytes) : bytes :=
  match GenPubkey B k ECC_CURVE_BLS_AUG with Ret (Some p, _) => p | _ => [] end.

Section Facts.
Variables (F : fbuild) (h2c : bytes -> bytes -> outcome (option (point fe2)))
  (pairs_one : list (point fe * point fe2) -> bool) (privToPub : bytes -> bytes) (B : backends).
Hypothesis RB : runs_bls F h2c pairs_one privToPub B.
(** the answers of Sign and Verify once the message is hashed to the point r *)
Definition sign_as (r : outcome (option (point fe2))) (k : bytes) : run (option bytes * Z * Z) :=
  sign_ret (with_v0 (Some (if negb (Nat.eqb (length k) 32) then Ret (Err ErrOther)
    else match r with
         | Ret (Some hm) => Ret (Ok (g_ToCompressed (C2 F) (g_MulScalar (C2 F) hm (be2z k mod bls_order))))
         | _ => Panic end))).
Lemma sig_NUL : forall k ID m, Signature B k ID m ECC_CURVE_BLS_NUL = sign_as (h2c m BASIC_SCHEME_DST) k.
Proof using RB.
  intros k ID m. unfold Signature.
  replace (ECC_CURVE_BLS_NUL =? _) with false by reflexivity. cbn [ECC_CURVE_BLS_NUL].
  change (sign_ret (with_v0 (sp_sign (bk_bls B) k (BASIC_SCHEME_DST ++ m))) = sign_as (h2c m BASIC_SCHEME_DST) k).
  rewrite (proj1 RB). unfold bls_pkg, sp_sign, bls_Sign, bls_Hash, sign_as. rewrite hash_NUL. reflexivity.
Qed.
Lemma gen_bls : forall k typ, typ = ECC_CURVE_BLS_NUL \/ typ = ECC_CURVE_BLS_AUG ->
  GenPubkey B k typ = genpub_ret (bls_GenPublicKey privToPub k).
Proof using RB. intros k typ [->| ->]; change (genpub_ret (sp_genpub (bk_bls B) k) = genpub_ret (bls_GenPublicKey privToPub k)); rewrite (proj1 RB); reflexivity. Qed.
Lemma sig_AUG : forall k ID m, Signature B k ID m ECC_CURVE_BLS_AUG = sign_as (h2c (pub_of B k ++ m) AUG_SCHEME_DST) k.
Proof using RB.
  intros k ID m.
  change (Signature B k ID m ECC_CURVE_BLS_AUG) with
    (match GenPubkey B k ECC_CURVE_BLS_AUG with
            | Panic => Some Panic
            | Ret (pub, _) =>
                let pub := match pub with Some p => p | None => [] end in
                sign_ret (with_v0 (sp_sign (bk_bls B) k (AUG_SCHEME_DST ++ pub ++ m)))
            end).
  unfold pub_of. rewrite (gen_bls k ECC_CURVE_BLS_AUG (or_intror eq_refl)). rewrite (proj1 RB).
  assert (X : forall pub, sign_ret (with_v0 (sp_sign (bls_pkg F h2c pairs_one privToPub) k (AUG_SCHEME_DST ++ pub ++ m))) = sign_as (h2c (pub ++ m) AUG_SCHEME_DST) k).
  { intros pub. unfold bls_pkg, sp_sign, bls_Sign, bls_Hash, sign_as. rewrite hash_AUG. reflexivity. }
  unfold bls_GenPublicKey. destruct (negb (Nat.eqb (length k) 32)); [apply (X [])|].
  destruct (negb (isScalarLegal k)); [apply (X [])|]. apply (X (privToPub k)).
Qed.
(** Verify, once the message is hashed to r *)
Definition verify_as (r : outcome (option (point fe2))) (pub sig : bytes) : outcome Z :=
  verify_ret (if negb (Nat.eqb (length pub) 48) || negb (Nat.eqb (length sig) 96) then Ret false
    else match r with
    | Panic => Panic
    | Ret hm =>
        match g_FromCompressed (C2 F) sig with
        | None => Ret false
        | Some s => ValidatePairing F pairs_one g1One s (g_FromCompressed (C1 F) pub) hm
        end
    end).
Lemma ver_bls : forall d m, (0 < length d)%nat -> forall pub sig t, hash_pair (d ++ m) = Some (m, t) ->
  verify_ret (bls_Verify F h2c pairs_one pub (d ++ m) sig) = verify_as (h2c m t) pub sig.
Proof using.
  intros d m Hd pub sig t Hh. unfold bls_Verify, verify_as, bls_Hash. rewrite Hh.
  replace (Nat.eqb (length (d ++ m)) 0) with false
    by (symmetry; apply Nat.eqb_neq; rewrite app_length; lia).
  rewrite orb_false_r. reflexivity.
Qed.
Lemma ver_NUL : forall pub ID m sig, Verify B pub ID m sig ECC_CURVE_BLS_NUL = verify_as (h2c m BASIC_SCHEME_DST) pub sig.
Proof using RB.
  intros pub ID m sig.
  change (verify_ret (sp_verify (bk_bls B) pub (BASIC_SCHEME_DST ++ m) sig) = verify_as (h2c m BASIC_SCHEME_DST) pub sig).
  rewrite (proj1 RB). apply ver_bls; [vm_compute; lia | apply hash_NUL].
Qed.
Lemma ver_AUG : forall pub ID m sig, Verify B pub ID m sig ECC_CURVE_BLS_AUG = verify_as (h2c (pub ++ m) AUG_SCHEME_DST) pub sig.
Proof using RB.
  intros pub ID m sig.
  change (verify_ret (sp_verify (bk_bls B) pub (AUG_SCHEME_DST ++ (pub ++ m)) sig) = verify_as (h2c (pub ++ m) AUG_SCHEME_DST) pub sig).
  rewrite (proj1 RB). apply ver_bls; [vm_compute; lia | apply hash_AUG].
Qed.
End Facts.

(** The hash-to-curve function matters to a NUL call at (message, NUL tag) only
    and to an AUG call at (public key then message, AUG tag) only; the two pairs
    always differ. *)
Theorem C53_separated : forall F h h' pairs_one privToPub B B',
  runs_bls F h pairs_one privToPub B -> runs_bls F h' pairs_one privToPub B' ->
  (forall k ID m, h m tag_NUL = h' m tag_NUL ->
    Signature B k ID m ECC_CURVE_BLS_NUL = Signature B' k ID m ECC_CURVE_BLS_NUL) /\
  (forall k ID m, h (pub_of B k ++ m) tag_AUG = h' (pub_of B k ++ m) tag_AUG ->
    Signature B k ID m ECC_CURVE_BLS_AUG = Signature B' k ID m ECC_CURVE_BLS_AUG) /\
  (forall pub ID m sig, h m tag_NUL = h' m tag_NUL ->
    Verify B pub ID m sig ECC_CURVE_BLS_NUL = Verify B' pub ID m sig ECC_CURVE_BLS_NUL) /\
  (forall pub ID m sig, h (pub ++ m) tag_AUG = h' (pub ++ m) tag_AUG ->
    Verify B pub ID m sig ECC_CURVE_BLS_AUG = Verify B' pub ID m sig ECC_CURVE_BLS_AUG) /\
  (forall x y : bytes, (x, tag_NUL) <> (y, tag_AUG)).
Proof.
  intros F h h' pairs_one privToPub B B' R R'. rewrite <- tag_NUL_eq, <- tag_AUG_eq.
  split; [|split; [|split; [|split]]].
  - intros k ID m E. rewrite (sig_NUL _ _ _ _ _ R), (sig_NUL _ _ _ _ _ R'), E. reflexivity.
  - intros k ID m E. rewrite (sig_AUG _ _ _ _ _ R), (sig_AUG _ _ _ _ _ R').
    replace (pub_of B' k) with (pub_of B k); [rewrite E; reflexivity|].
    unfold pub_of. rewrite (gen_bls _ _ _ _ _ R), (gen_bls _ _ _ _ _ R') by (right; reflexivity). reflexivity.
  - intros pub ID m sig E. rewrite (ver_NUL _ _ _ _ _ R), (ver_NUL _ _ _ _ _ R'), E. reflexivity.
  - intros pub ID m sig E. rewrite (ver_AUG _ _ _ _ _ R), (ver_AUG _ _ _ _ _ R'), E. reflexivity.
  - intros x y E. discriminate E.
Qed.
Print Assumptions C53_separated.

(** What is signed: the compressed product of the hashed point by the key. *)
Theorem C53_signed_point : forall F h pairs_one privToPub B, runs_bls F h pairs_one privToPub B ->
  forall k ID m hm, length k = 32%nat ->
  (h m tag_NUL = Ret (Some hm) -> Signature B k ID m ECC_CURVE_BLS_NUL =
     Some (Ret (Some (g_ToCompressed (C2 F) (g_MulScalar (C2 F) hm (be2z k mod bls_order))), 0, SUCCESS))) /\
  (h (pub_of B k ++ m) tag_AUG = Ret (Some hm) -> Signature B k ID m ECC_CURVE_BLS_AUG =
     Some (Ret (Some (g_ToCompressed (C2 F) (g_MulScalar (C2 F) hm (be2z k mod bls_order))), 0, SUCCESS))).
Proof.
  intros F h pairs_one privToPub B R k ID m hm Hk. rewrite <- tag_NUL_eq, <- tag_AUG_eq. split; intros E.
  - rewrite (sig_NUL _ _ _ _ _ R), E. unfold sign_as. rewrite Hk. reflexivity.
  - rewrite (sig_AUG _ _ _ _ _ R), E. unfold sign_as. rewrite Hk. reflexivity.
Qed.
Print Assumptions C53_signed_point.

(** ** C54 *)
Definition inf1 : bytes := 0xc0 :: repeat 0 47.
Definition inf2 : bytes := 0xc0 :: repeat 0 95.
Lemma dec_inf1 F : g_FromCompressed (C1 F) inf1 = Some (g_Zero (C1 F)). Proof. reflexivity. Qed.
Lemma dec_inf2 F : g_FromCompressed (C2 F) inf2 = Some (g_Zero (C2 F)). Proof. reflexivity. Qed.
Definition bls_id (typ : Z) : Prop := typ = ECC_CURVE_BLS_NUL \/ typ = ECC_CURVE_BLS_AUG.

Lemma ver_any F h pairs_one privToPub B : runs_bls F h pairs_one privToPub B ->
  forall typ pub ID m sig, bls_id typ -> exists m' t, Verify B pub ID m sig typ = verify_as F pairs_one (h m' t) pub sig.
Proof.
  intros R typ pub ID m sig [->| ->]; eexists; eexists; [apply (ver_NUL _ _ _ _ _ R) | apply (ver_AUG _ _ _ _ _ R)].
Qed.

(** A 48-byte public key without the compression flag crashes Verify as soon as
    the signature decodes, for every message: the decoding error is dropped and
    a nil point is used. *)
Theorem C54_never_crashes_refuted : forall F h pairs_one privToPub B, runs_bls F h pairs_one privToPub B ->
  forall typ ID m, bls_id typ -> Verify B (repeat 0 48) ID m inf2 typ = Panic.
Proof.
  intros F h pairs_one privToPub B R typ ID m Ht.
  destruct (ver_any F h pairs_one privToPub B R typ (repeat 0 48) ID m inf2 Ht) as (m' & t & ->).
  unfold verify_as. rewrite dec_inf2. replace (g_FromCompressed (C1 F) (repeat 0 48)) with (@None (point fe)) by reflexivity.
  destruct (h m' t) as [r|]; reflexivity.
Qed.
Print Assumptions C54_never_crashes_refuted.

(** Every key without the flag, and every signature that decodes. *)
Theorem C54_crash_set : forall F h pairs_one privToPub B, runs_bls F h pairs_one privToPub B ->
  (forall m t, exists p, h m t = Ret (Some p)) ->
  forall typ pub ID m sig, bls_id typ ->
  (Verify B pub ID m sig typ = Panic <->
   length pub = 48%nat /\ length sig = 96%nat /\ g_FromCompressed (C2 F) sig <> None /\ g_FromCompressed (C1 F) pub = None).
Proof.
  intros F h pairs_one privToPub B R Hh typ pub ID m sig Ht.
  destruct (ver_any F h pairs_one privToPub B R typ pub ID m sig Ht) as (m' & t & ->).
  destruct (Hh m' t) as (p & E). unfold verify_as. rewrite E.
  destruct (Nat.eqb_spec (length pub) 48) as [Lp|Lp]; [|split; [discriminate | intros (X & _); contradiction]].
  destruct (Nat.eqb_spec (length sig) 96) as [Ls|Ls]; [|split; [discriminate | intros (_ & X & _); contradiction]].
  cbn [negb orb].
  destruct (g_FromCompressed (C2 F) sig) as [s|]; [|split; [discriminate | intros (_ & _ & X & _); contradiction]].
  unfold ValidatePairing. destruct (g_FromCompressed (C1 F) pub) as [pk|].
  - split; [|intros (_ & _ & _ & X); discriminate]. destruct (Check _ _); discriminate.
  - split; [|reflexivity]. intros _. repeat split; [exact Lp | exact Ls | discriminate].
Qed.
Print Assumptions C54_crash_set.

(** With a public key that decodes, or a wrong length anywhere, it returns. *)
Theorem C54_never_crashes_partial : forall F h pairs_one privToPub B, runs_bls F h pairs_one privToPub B ->
  (forall m t, exists p, h m t = Ret (Some p)) ->
  forall typ pub ID m sig, bls_id typ ->
  g_FromCompressed (C1 F) pub <> None \/ length pub <> 48%nat \/ length sig <> 96%nat ->
  Verify B pub ID m sig typ = Ret SUCCESS \/ Verify B pub ID m sig typ = Ret FAILURE.
Proof.
  intros F h pairs_one privToPub B R Hh typ pub ID m sig Ht Hd.
  assert (NP : Verify B pub ID m sig typ <> Panic).
  { intros E. apply (C54_crash_set F h pairs_one privToPub B R Hh typ pub ID m sig Ht) in E. destruct E as (A & D & _ & N). tauto. }
  destruct (ver_any F h pairs_one privToPub B R typ pub ID m sig Ht) as (m' & t & E). rewrite E in *. clear - NP.
  unfold verify_as in *. match goal with |- context [verify_ret ?x] => destruct x as [[|]|] end; [left | right |]; [reflexivity .. | contradiction].
Qed.
Print Assumptions C54_never_crashes_partial.

(** ** C75: no key, message-independent signature verifies every message *)
Theorem C75_identity_refuted : forall F h pairs_one privToPub B, runs_bls F h pairs_one privToPub B ->
  (forall m t, exists p, h m t = Ret (Some p)) ->
  forall typ ID m, bls_id typ -> Verify B inf1 ID m inf2 typ = Ret SUCCESS.
Proof.
  intros F h pairs_one privToPub B R Hh typ ID m Ht.
  destruct (ver_any F h pairs_one privToPub B R typ inf1 ID m inf2 Ht) as (m' & t & ->).
  destruct (Hh m' t) as (p & E). unfold verify_as. rewrite E, dec_inf2, dec_inf1.
  unfold ValidatePairing, AddPair.
  replace (g_IsZero (C2 F) (g_Zero (C2 F))) with true by reflexivity. rewrite orb_true_r.
  replace (g_IsZero (C1 F) (g_Neg (C1 F) (g_Zero (C1 F)))) with true by reflexivity. reflexivity.
Qed.
Print Assumptions C75_identity_refuted.

(** ** C20 *)
Lemma cof_inf F : g_ToCompressed (C2 F) (g_Blank (C2 F)) = inf2. Proof. reflexivity. Qed.
(** The keys 0 and r (the group order) are signed with: SUCCESS and the constant
    signature c000..., for every message; out-of-range keys and wrong lengths
    make GenPubkey answer FAILURE. *)
Theorem C20_bls_refuted : forall F h pairs_one privToPub B, runs_bls F h pairs_one privToPub B ->
  (forall m t, exists p, h m t = Ret (Some p)) ->
  (forall typ ID m k, bls_id typ -> length k = 32%nat -> be2z k mod bls_order = 0 ->
    Signature B k ID m typ = Some (Ret (Some inf2, 0, SUCCESS))) /\
  (forall typ k, bls_id typ -> length k <> 32%nat \/ bls_order <= be2z k -> GenPubkey B k typ = Ret (None, FAILURE)) /\
  (forall typ ID m k, bls_id typ -> length k <> 32%nat -> Signature B k ID m typ = Some (Ret (None, 0, FAILURE))) /\
  FAILURE <> ECC_PRIKEY_ILLEGAL.
Proof.
  intros F h pairs_one privToPub B R Hh. split; [|split; [|split; [|discriminate]]].
  - intros typ ID m k Ht Lk Hk.
    assert (X : exists m' t, Signature B k ID m typ = sign_as F (h m' t) k).
    { destruct Ht as [->| ->]; eexists; eexists; [apply (sig_NUL _ _ _ _ _ R) | apply (sig_AUG _ _ _ _ _ R)]. }
    destruct X as (m' & t & ->). destruct (Hh m' t) as (p & E). unfold sign_as. rewrite E, Lk, Hk.
    cbn [Nat.eqb negb g_MulScalar]. rewrite cof_inf. reflexivity.
  - intros typ k Ht Hk. rewrite (gen_bls _ _ _ _ _ R k typ Ht). unfold bls_GenPublicKey, isScalarLegal.
    destruct (Nat.eqb_spec (length k) 32) as [L|L]; [|reflexivity]. cbn [negb].
    destruct (Z.leb_spec bls_order (be2z k)) as [X|X]; [reflexivity|]. destruct Hk as [Hk|Hk]; [contradiction|lia].
  - intros typ ID m k Ht Lk.
    assert (X : exists r, Signature B k ID m typ = sign_as F r k).
    { destruct Ht as [->| ->]; eexists; [apply (sig_NUL _ _ _ _ _ R) | apply (sig_AUG _ _ _ _ _ R)]. }
    destruct X as (r & ->). unfold sign_as. apply Nat.eqb_neq in Lk. rewrite Lk. reflexivity.
Qed.
Print Assumptions C20_bls_refuted.
Example C20_bls_keys : (length (z2be 32 bls_order) = 32%nat /\ be2z (z2be 32 bls_order) mod bls_order = 0 /\ bls_order <= be2z (z2be 32 bls_order)) /\
  (length (repeat 0 32) = 32%nat /\ be2z (repeat 0 32) mod bls_order = 0).
Proof. vm_compute. repeat split; discriminate. Qed.

(** ** C76: the package-level Sign, without a tag in front of the message, does
    not sign the message: every message and every key gives c000... *)
Lemma mul_blank F : forall k p, g_IsZero (C2 F) p = true -> g_IsZero (C2 F) (g_MulScalar (C2 F) p k) = true.
Proof.
  intros k p Hp. destruct k as [|k|k]; try reflexivity. unfold g_MulScalar.
  assert (Hq : g_IsZero (C2 F) (g_Blank (C2 F)) = true) by reflexivity. revert Hq Hp.
  generalize (g_Blank (C2 F)) as q. revert p. induction k as [k IH|k IH|]; intros p q Hq Hp; cbn [mul_loop].
  - apply IH; [unfold g_Add; rewrite Hq; exact Hp | unfold g_Double; rewrite Hp; exact Hp].
  - apply IH; [exact Hq | unfold g_Double; rewrite Hp; exact Hp].
  - unfold g_Add. rewrite Hq. exact Hp.
Qed.
Theorem C76_untagged_refuted : forall F h k m, length k = 32%nat ->
  firstn 43 m <> tag_NUL -> firstn 43 m <> tag_AUG -> bls_Sign F h k m = Ret (Ok inf2).
Proof.
  intros F h k m Lk Hn Ha. unfold bls_Sign. rewrite Lk. cbn [Nat.eqb negb]. unfold bls_Hash, hash_pair.
  assert (S0 : forall d, fe_Equals d (firstn (length d) m) = true -> firstn (length d) m = d).
  { intros d. generalize (firstn (length d) m) as l. induction d as [|x d IH]; intros [|y l]; cbn [fe_Equals]; try discriminate; [reflexivity|].
    intros E. apply andb_true_iff in E. destruct E as [E1 E2]. apply Z.eqb_eq in E1. rewrite E1, (IH l E2). reflexivity. }
  unfold starts. destruct (fe_Equals BASIC_SCHEME_DST _) eqn:E1.
  { exfalso. apply S0 in E1. apply Hn. rewrite <- tag_NUL_eq. exact E1. }
  destruct (fe_Equals AUG_SCHEME_DST _) eqn:E2.
  { exfalso. apply S0 in E2. apply Ha. rewrite <- tag_AUG_eq. exact E2. }
  assert (Z := mul_blank F (be2z k mod bls_order) (g_Blank (C2 F)) eq_refl).
  unfold g_ToCompressed, g_Affine. rewrite Z, Z. reflexivity.
Qed.
Print Assumptions C76_untagged_refuted.
Example C76_message : firstn 43 (ascii_bytes "hello") <> tag_NUL /\ firstn 43 (ascii_bytes "hello") <> tag_AUG.
Proof. split; discriminate. Qed.

(** ** The hypotheses can be met *)
Definition demo_bls (F : fbuild) h2c (B : backends) : backends :=
  {| bk_drbg := bk_drbg B; bk_entropy := bk_entropy B; bk_rand := bk_rand B; bk_fuel := 5; bk_r1 := bk_r1 B;
     bk_ed_normal := bk_ed_normal B; bk_ed := bk_ed B; bk_x := bk_x B;
     bk_sha256 := bk_sha256 B; bk_ed_baseadd := bk_ed_baseadd B; bk_ed_add := bk_ed_add B;
     bk_bls := bls_pkg F h2c (fun l => Nat.eqb (length l) 2) (fun k => inf1); bk_bls_baseadd := bk_bls_baseadd B;
     bk_bls_aggregate := fun l => Ret (bls_Aggregate F l);
     bk_pasta := bk_pasta B; bk_pasta_baseadd := bk_pasta_baseadd B; bk_pasta_add := bk_pasta_add B;
     bk_pasta_mul := bk_pasta_mul B; bk_pasta_decompress := bk_pasta_decompress B |}.
Example demo_bls_runs F h B : runs_bls F h (fun l => Nat.eqb (length l) 2) (fun k => inf1) (demo_bls F h B).
Proof. split; [reflexivity | intros l; reflexivity]. Qed.
(** a constant hash, and the hash of the code with a toy H *)
Example demo_hash_ok : forall m t : bytes, exists p, (fun _ _ => Ret (Some g2One)) m t = Ret (Some p).
Proof. intros m t. exists g2One. reflexivity. Qed.
(** The hash of the code returns a point for every hash function with 32-byte
    values, every build, message and tag, so the hypothesis on h2c above holds
    of the program. *)
Lemma fb_top0 F : forall b, length b = 32%nat -> exists e, fromBytes F (repeat 0 16 ++ b) = Some e.
Proof.
  intros b Hb. unfold fromBytes. rewrite app_length, Hb. cbn [length repeat Nat.add Nat.eqb negb].
  assert (V : fe_valid (fe_FromBytes (repeat 0 16 ++ b)) = true) by reflexivity.
  cbn [repeat] in V. rewrite V. eexists. reflexivity.
Qed.
Lemma f64_total F : forall b, length b = 64%nat -> exists e, from64Bytes F b = Some e.
Proof.
  intros b Hb. unfold from64Bytes. rewrite Hb. cbn [Nat.eqb negb].
  destruct (fb_top0 F (firstn 32 b)) as (e0 & ->); [rewrite firstn_length, Hb; reflexivity|].
  destruct (fb_top0 F (skipn 32 b)) as (e1 & ->); [rewrite skipn_length, Hb; reflexivity|].
  eexists. reflexivity.
Qed.
Lemma blocks_len H : (forall x, length (H x) = 32%nat) -> forall n i b0 b dst, length b = 32%nat ->
  length (concat (xmd_blocks H n i b0 b dst)) = (32 * S n)%nat.
Proof.
  intros HL n. induction n as [|n IH]; intros i b0 b dst Hb; cbn [xmd_blocks concat]; rewrite app_length, Hb; [reflexivity|].
  rewrite IH by apply HL. lia.
Qed.
Theorem C52_hash_total : forall H F, (forall x, length (H x) = 32%nat) ->
  forall m t, exists p, g2_HashToCurve H F m t = Ret (Some p).
Proof.
  intros H F HL m t. unfold g2_HashToCurve, hashToFp, expandMsg.
  replace ((Z.of_nat 4 * 64 + 32 - 1) / 32 <? 1) with false by reflexivity.
  set (dst := t ++ [Z.of_nat (length t) mod 256]).
  match goal with |- context [concat ?x] => set (l := concat x) end.
  assert (L : length (firstn (Z.to_nat (Z.of_nat 4 * 64)) l) = 256%nat).
  { rewrite firstn_length. unfold l. rewrite blocks_len by apply HL. reflexivity. }
  set (rb := firstn _ l) in *. clearbody rb. cbn [seq map].
  assert (Q : forall i, (i < 4)%nat -> exists e, from64Bytes F (firstn 64 (skipn (i * 64) rb)) = Some e).
  { intros i Hi. apply f64_total. rewrite firstn_length, skipn_length, L. lia. }
  destruct (Q 0%nat ltac:(lia)) as (a & ->). destruct (Q 1%nat ltac:(lia)) as (b & ->).
  destruct (Q 2%nat ltac:(lia)) as (c & ->). destruct (Q 3%nat ltac:(lia)) as (d & ->).
  cbn [all_some]. eexists. reflexivity.
Qed.
Print Assumptions C52_hash_total.
