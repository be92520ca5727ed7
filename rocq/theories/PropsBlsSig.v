(** Properties C84-C87: BLS signatures as points of G2. *)
From Coq Require Import ZArith List Bool Lia Permutation.
From Verif Require Import Base ModelECDSA ModelApi ModelBlsF SpecBls ModelBls SpecBlsG Fp BlsFp2 Weier Jac Group SpecBlsSig SpecBlsPair ProofBlsI ProofBlsJ ProofBlsK ProofBlsL PropsBlsApi.
Import ListNotations.
Local Open Scope Z_scope.

(** [sig] is the compressed encoding of a point whose order divides r *)
Definition is_sig (sig : bytes) : Prop := exists Q, in_G2 Q /\ sig_bytes Q = sig.

Definition opt_dec {A} (o : option A) : {exists P, o = Some P} + {~ exists P, o = Some P}.
Proof. destruct o as [P|]; [left; exists P; reflexivity|right; intros [P E]; discriminate E]. Defined.
Lemma is_sig_dec F : exact_but_square F -> forall sig, bytes_ok sig -> length sig = 96%nat ->
  (exists P, g_FromCompressed (C2 F) sig = Some P) <-> is_sig sig.
Proof.
  intros HF sig O L. split.
  - intros [P D]. destruct (sig_dec_sound F HF sig P O L D) as (Q & _ & HQ & E & _). exists Q. auto.
  - intros (Q & HQ & <-). destruct (sig_dec_complete F HF Q HQ) as (P & D & _). exists P. exact D.
Qed.
Lemma agg_api F h pairs_one privToPub B : runs_bls F h pairs_one privToPub B -> forall typ sigs, bls_id typ -> sigs <> [] ->
  AggregateSignatures B typ sigs = match bls_Aggregate F sigs with None => Ret (None, FAILURE) | Some a => Ret (Some a, SUCCESS) end.
Proof.
  intros [_ R] typ sigs Ht N. unfold AggregateSignatures. destruct sigs as [|s l]; [congruence|].
  replace ((typ =? ECC_CURVE_BLS_NUL) || (typ =? ECC_CURVE_BLS_AUG)) with true by (destruct Ht as [->| ->]; reflexivity).
  rewrite R. destruct (bls_Aggregate F (s :: l)); reflexivity.
Qed.

(** ** C84: which 96-byte strings are signatures, in the portable build *)
Theorem C84_signature_forms : forall h pairs_one privToPub B, runs_bls portable h pairs_one privToPub B ->
  forall typ sig, bls_id typ -> bytes_ok sig -> length sig = 96%nat ->
  (is_sig sig -> AggregateSignatures B typ [sig] = Ret (Some sig, SUCCESS)) /\
  (~ is_sig sig -> AggregateSignatures B typ [sig] = Ret (None, FAILURE) /\
     forall pub ID m, Verify B pub ID m sig typ <> Ret SUCCESS).
Proof.
  intros h pairs_one privToPub B R typ sig Ht O L. rewrite (agg_api _ _ _ _ _ R) by (assumption || discriminate).
  pose proof portable_exact as HF. split.
  - intros (Q & HQ & <-). rewrite agg_def. cbn [fold_left agg_step].
    destruct (sig_dec_complete portable HF Q HQ) as (P & D & J & Z). rewrite D.
    assert (E : g_Add (C2 portable) (g_Blank (C2 portable)) P = P) by reflexivity. rewrite E.
    rewrite (sig_enc portable HF P Q J); [reflexivity|]. destruct Z as [Z|Z]; [left; exact Z|right; right].
    pose proof (g2_iszero_rep portable HF _ _ J) as I. rewrite Z in I. change (g_IsZero (C2 portable) (g_Zero (C2 portable))) with true in I.
    destruct Q; [reflexivity|discriminate].
  - intros N. assert (D : g_FromCompressed (C2 portable) sig = None).
    { destruct (g_FromCompressed (C2 portable) sig) as [P|] eqn:D; [|reflexivity]. exfalso. apply N. apply (is_sig_dec portable HF sig O L). exists P. exact D. }
    split.
    + rewrite agg_def. cbn [fold_left agg_step]. rewrite D. reflexivity.
    + intros pub ID m. destruct (ver_any _ _ _ _ _ R typ pub ID m sig Ht) as (m' & t & ->). unfold verify_as. rewrite D.
      destruct (_ || _); [discriminate|]. destruct (h m' t); discriminate.
Qed.
Print Assumptions C84_signature_forms.
(** Two points do not share an encoding, so a signature has one form *)
Theorem C84_one_form : forall Q Q', in_G2 Q -> in_G2 Q' -> sig_bytes Q = sig_bytes Q' -> Q = Q'.
Proof. exact sig_inj. Qed.
Print Assumptions C84_one_form.
Example C84_infinity : is_sig inf2 /\ bytes_ok inf2 /\ length inf2 = 96%nat.
Proof.
  split; [exists g2_inf; split; [exact (g_zero _ _ _ _ _ G2_closed)|reflexivity]|]. split; [|reflexivity].
  unfold inf2. repeat (constructor; [unfold byte_ok; lia|]). constructor.
Qed.

(** ** C85: aggregation *)
(** Which lists are refused.  Bytes after the 96th are not looked at. *)
Theorem C85_refused : forall h pairs_one privToPub B, runs_bls portable h pairs_one privToPub B ->
  forall typ sigs, bls_id typ -> sigs <> [] -> Forall bytes_ok sigs ->
  (AggregateSignatures B typ sigs = Ret (None, FAILURE) <->
   exists s, In s sigs /\ ~ is_sig (firstn 96 s)) /\
  (forall out, AggregateSignatures B typ sigs = Ret out ->
   AggregateSignatures B typ (map (firstn 96) sigs) = Ret out).
Proof.
  intros h pairs_one privToPub B R typ sigs Ht N O. pose proof portable_exact as HF.
  assert (N' : map (firstn 96) sigs <> []) by (destruct sigs; [congruence|discriminate]).
  rewrite (agg_api _ _ _ _ _ R), (agg_api _ _ _ _ _ R) by assumption.
  assert (SH : forall s, bytes_ok s -> is_sig (firstn 96 s) -> (96 <= length s)%nat).
  { intros s _ (Q & _ & E). destruct (sig_bytes_ok Q) as [_ L]. rewrite E, firstn_length in L. lia. }
  destruct (Forall_Exists_dec (fun s => (96 <= length s)%nat) (fun s => le_dec 96 (length s)) sigs) as [F|F].
  - rewrite (agg_long portable sigs F). split; [|intros out H; exact H].
    set (l := map (firstn 96) sigs).
    assert (Ol : Forall (fun b => bytes_ok b /\ length b = 96%nat) l).
    { apply Forall_map. rewrite Forall_forall in *. intros s Hs. split; [apply bytes_ok_firstn, O, Hs|]. rewrite firstn_length. specialize (F s Hs). lia. }
    split.
    + intros H. destruct (Forall_Exists_dec (fun s => exists P, g_FromCompressed (C2 portable) (firstn 96 s) = Some P) (fun s => opt_dec (g_FromCompressed (C2 portable) (firstn 96 s))) sigs) as [A|A].
      * exfalso. assert (X : exists pts, Forall in_G2 pts /\ l = map sig_bytes pts).
        { unfold l. clear - A O F HF. induction A as [|s r [P D] A IH]; [exists []; split; [constructor|reflexivity]|].
          inversion_clear O as [|? ? Os Or]. inversion_clear F as [|? ? Fs Fr]. destruct (IH Or Fr) as (pts & HP & E).
          destruct (sig_dec_sound portable HF (firstn 96 s) P) as (Q & _ & HQ & EQ & _); [apply bytes_ok_firstn, Os|rewrite firstn_length; lia|exact D|].
          exists (Q :: pts). split; [constructor; assumption|]. cbn [map]. rewrite E, EQ. reflexivity. }
        destruct X as (pts & HP & E). destruct (agg_value portable HF pts HP) as (P & E' & _). rewrite agg_def, E, E' in H. discriminate.
      * apply Exists_exists in A. destruct A as (s & Hs & D). exists s. split; [exact Hs|]. intros S. apply D.
        rewrite Forall_forall in O, F. apply (is_sig_dec portable HF); [apply bytes_ok_firstn, O, Hs|rewrite firstn_length; specialize (F s Hs); lia|exact S].
    + intros (s & Hs & NS). destruct (bls_Aggregate portable l) as [a|] eqn:E; [|reflexivity]. exfalso. rewrite agg_def in E.
      destruct (fold_left (agg_step portable) l (Some (g_Blank (C2 portable)))) as [P|] eqn:E1; [|discriminate].
      destruct (agg_inv portable HF l Ol _ _ E1) as (pts & HP & El). apply NS.
      assert (I : In (firstn 96 s) (map sig_bytes pts)) by (rewrite <- El; apply in_map, Hs).
      apply in_map_iff in I. destruct I as (Q & EQ & HQ). exists Q. split; [rewrite Forall_forall in HP; apply HP, HQ|exact EQ].
  - apply Exists_exists in F. destruct F as (s & Hs & NL).
    rewrite (agg_short portable sigs s Hs) by lia.
    rewrite (agg_short portable (map (firstn 96) sigs) (firstn 96 s)) by (apply in_map, Hs || (rewrite firstn_length; lia)).
    split; [|intros out H; exact H]. split; [|reflexivity]. intros _. exists s. split; [exact Hs|]. intros S.
    rewrite Forall_forall in O. specialize (SH s (O s Hs) S). lia.
Qed.
Print Assumptions C85_refused.

Definition exact_build (F : fbuild) : Prop := exact_but_square F /\ forall x, sq_ok F x.
Definition g2_total (pts : list g2pt) : g2pt := fold_right g2_add g2_inf pts.
Lemma exact_inv F : exact_build F -> forall x, inv2 F x.
Proof. intros [_ S] x. split; apply S. Qed.

(** The aggregate of signatures is the encoding of the sum of their points, for
    every list in which the squarings of the last inversion come out right: the
    squarings of the two halves of the accumulated Z coordinate. *)
Theorem C85_sum_partial : forall F h pairs_one privToPub B, exact_but_square F -> runs_bls F h pairs_one privToPub B ->
  forall typ pts, bls_id typ -> pts <> [] -> Forall in_G2 pts ->
  exists Ps, Forall2 (fun Q P => g_FromCompressed (C2 F) (sig_bytes Q) = Some P) pts Ps /\
  let Z := ModelBls.pz (fold_left (g_Add (C2 F)) Ps (g_Blank (C2 F))) in
  (sq_ok F (fst Z) -> sq_ok F (snd Z) ->
   AggregateSignatures B typ (map sig_bytes pts) = Ret (Some (sig_bytes (g2_total pts)), SUCCESS)).
Proof.
  intros F h pairs_one privToPub B HF R typ pts Ht N HP.
  rewrite (agg_api _ _ _ _ _ R) by (assumption || (destruct pts; [congruence|discriminate])).
  destruct (agg_value F HF pts HP) as (P & E & _ & V).
  assert (X : exists Ps, Forall2 (fun Q P => g_FromCompressed (C2 F) (sig_bytes Q) = Some P) pts Ps /\
    forall q, fold_left (agg_step F) (map sig_bytes pts) (Some q) = Some (fold_left (g_Add (C2 F)) Ps q)).
  { clear - HF HP. induction HP as [|Q l HQ HL IH]; [exists []; split; [constructor|reflexivity]|].
    destruct IH as (Ps & FA & E). destruct (sig_dec_complete F HF Q HQ) as (P & D & _). exists (P :: Ps). split; [constructor; assumption|].
    intros q. cbn [map fold_left agg_step]. rewrite D. apply E. }
  destruct X as (Ps & FA & E'). exists Ps. split; [exact FA|]. rewrite E' in E. injection E as ->. cbv zeta. intros S1 S2.
  rewrite (V (conj S1 S2)). reflexivity.
Qed.
Print Assumptions C85_sum_partial.
Lemma agg_exact F : exact_build F -> forall h pairs_one privToPub B, runs_bls F h pairs_one privToPub B ->
  forall typ pts, bls_id typ -> pts <> [] -> Forall in_G2 pts ->
  AggregateSignatures B typ (map sig_bytes pts) = Ret (Some (sig_bytes (g2_total pts)), SUCCESS).
Proof.
  intros HE h pairs_one privToPub B R typ pts Ht N HP.
  destruct (C85_sum_partial F h pairs_one privToPub B (proj1 HE) R typ pts Ht N HP) as (Ps & _ & V). apply V; apply (proj2 HE).
Qed.
(** For a build that squares correctly: always, so the order of the list and the
    way it is split into parts do not matter. *)
Theorem C85_sum_exact_partial : forall F h pairs_one privToPub B, exact_build F -> runs_bls F h pairs_one privToPub B ->
  forall typ pts, bls_id typ -> pts <> [] -> Forall in_G2 pts ->
  AggregateSignatures B typ (map sig_bytes pts) = Ret (Some (sig_bytes (g2_total pts)), SUCCESS) /\
  (forall pts', Permutation pts pts' ->
    AggregateSignatures B typ (map sig_bytes pts') = AggregateSignatures B typ (map sig_bytes pts)) /\
  (forall l l' a a', pts = l ++ l' ->
    AggregateSignatures B typ (map sig_bytes l) = Ret (Some a, SUCCESS) ->
    AggregateSignatures B typ (map sig_bytes l') = Ret (Some a', SUCCESS) ->
    AggregateSignatures B typ [a; a'] = AggregateSignatures B typ (map sig_bytes pts)).
Proof.
  intros F h pairs_one privToPub B HE R typ pts Ht N HP.
  assert (A : forall pts, pts <> [] -> Forall in_G2 pts -> AggregateSignatures B typ (map sig_bytes pts) = Ret (Some (sig_bytes (g2_total pts)), SUCCESS))
    by (intros; apply (agg_exact F HE h pairs_one privToPub B R); assumption).
  split; [apply A; assumption|]. split.
  - intros pts' P. assert (HP' : Forall in_G2 pts') by (eapply Permutation_Forall; eassumption).
    assert (N' : pts' <> []) by (intros ->; apply Permutation_sym, Permutation_nil in P; contradiction).
    rewrite !A by assumption. f_equal. f_equal. f_equal. f_equal. symmetry. exact (sum_perm _ _ P HP).
  - intros l l' a a' -> E E'. apply Forall_app in HP. destruct HP as [HL HL'].
    assert (NL : forall l, AggregateSignatures B typ (map sig_bytes l) = Ret (Some a, SUCCESS) -> l <> []) by (intros [|? ?]; discriminate).
    assert (NL' : forall l, AggregateSignatures B typ (map sig_bytes l) = Ret (Some a', SUCCESS) -> l <> []) by (intros [|? ?]; discriminate).
    apply NL in E as X. apply NL' in E' as X'. rewrite A in E, E' by assumption.
    injection E as <-. injection E' as <-. rewrite (A (l ++ l')) by (assumption || (apply Forall_app; auto)).
    change [sig_bytes (g2_total l); sig_bytes (g2_total l')] with (map sig_bytes [g2_total l; g2_total l']).
    pose proof (sum_in l HL) as I. pose proof (sum_in l' HL') as I'.
    rewrite A; [|discriminate|repeat (constructor; [assumption|]); constructor]. f_equal. f_equal. f_equal. f_equal.
    unfold g2_total at 1. cbn [fold_right]. rewrite (gadd_0_r _ _ _ _ _ G2_closed) by exact I'. symmetry. exact (sum_app l l' HL HL').
Qed.
Print Assumptions C85_sum_exact_partial.
Example C85_builds : exact_but_square portable /\ exact_build repaired.
Proof. split; [exact portable_exact|]. split; [exact repaired_exact|exact repaired_square]. Qed.

(** ** C86: what Verify accepts *)
(** the message [m] is hashed to the point [PH] under the key [pub] *)
Definition hashes_to (h : bytes -> bytes -> outcome (option (ModelBls.point fe2))) (typ : Z) (pub m : bytes) (PH : ModelBls.point fe2) : Prop :=
  (typ = ECC_CURVE_BLS_NUL /\ h m tag_NUL = Ret (Some PH)) \/ (typ = ECC_CURVE_BLS_AUG /\ h (pub ++ m) tag_AUG = Ret (Some PH)).
Lemma affine1_rep P A : affine1 P A -> rep_g1 P A /\ ModelBls.pz P = r1.
Proof.
  destruct A as [|x y]; [contradiction|]. intros (HX & HY & HZ). split; [|exact HZ]. exists x, y, (fp_of bls_p 1).
  rewrite HZ. refine (conj HX (conj HY (conj r1_rep _))). apply (jac_1 _ _ _ _ _ _ _ _ _ Kp1).
Qed.
Lemma affine2_rep P A : affine2 P A -> rep_g2 P A /\ ModelBls.pz P = fp2_one.
Proof.
  destruct A as [|x y]; [contradiction|]. intros (HX & HY & HZ). split; [|exact HZ]. exists x, y, (q2 bls_p 1 0).
  rewrite HZ. refine (conj HX (conj HY (conj one2_rep _))). apply (jac_1 _ _ _ _ _ _ _ _ _ Kp2).
Qed.
Lemma ver_hash F h pairs_one privToPub B : runs_bls F h pairs_one privToPub B -> forall typ pub ID m sig PH, hashes_to h typ pub m PH ->
  Verify B pub ID m sig typ = verify_as F pairs_one (Ret (Some PH)) pub sig.
Proof.
  intros R typ pub ID m sig PH [[-> E]|[-> E]]; [rewrite (ver_NUL _ _ _ _ _ R), tag_NUL_eq, E|rewrite (ver_AUG _ _ _ _ _ R), tag_AUG_eq, E]; reflexivity.
Qed.
Lemma ver_core F (HF : exact_but_square F) pairs_one (GT : Type) (one : GT) mul inv ok e :
  pairing one mul inv ok e -> decides_pairing pairs_one one mul e ->
  forall pub sig k PA H PH, 0 <= k -> length pub = 48%nat -> bytes_ok sig -> g_FromCompressed (C1 F) pub = Some PA ->
  rep_g1 PA (g1_mul k g1_gen) -> ModelBls.pz PA = r1 \/ PA = g_Zero (C1 F) -> affine2 PH H -> in_G2 H ->
  verify_as F pairs_one (Ret (Some PH)) pub sig = Ret SUCCESS <-> sig = sig_bytes (g2_mul k H).
Proof.
  intros PR DP pub sig k PA H PH Hk LP O D JA ZA AH HH. destruct (affine2_rep _ _ AH) as [JH ZH].
  assert (HK : in_G2 (g2_mul k H)) by exact (zmul_ok _ _ _ _ _ G2_closed k H HH).
  unfold verify_as. rewrite LP, D. cbn [Nat.eqb negb orb].
  destruct (Nat.eqb_spec (length sig) 96) as [LS|LS]; cbn [negb].
  - destruct (g_FromCompressed (C2 F) sig) as [P|] eqn:DS.
    + destruct (sig_dec_sound F HF sig P O LS DS) as (S & JS & HS & ES & ZS).
      destruct (validate_iff F HF pairs_one GT one mul inv ok e PR DP k PA H PH Hk JA ZA JH (or_introl ZH) HH P S JS HS ZS) as (b & -> & Hb).
      rewrite <- ES. split.
      * intros V. destruct b; [|discriminate]. rewrite (proj1 Hb eq_refl). reflexivity.
      * intros V. apply sig_inj in V; [|assumption..]. rewrite (proj2 Hb V). reflexivity.
    + split; [discriminate|]. intros ->. destruct (sig_dec_complete F HF _ HK) as (P & D' & _). congruence.
  - split; [discriminate|]. intros ->. exfalso. apply LS, sig_bytes_ok.
Qed.

(** If the key decodes to k times the generator and the message is hashed to a
    point H of G2, exactly one byte string is accepted: the encoding of k H. *)
Theorem C86_accepted_partial : forall F h pairs_one privToPub B, exact_but_square F -> runs_bls F h pairs_one privToPub B ->
  forall (GT : Type) (one : GT) mul inv ok e, pairing one mul inv ok e -> decides_pairing pairs_one one mul e ->
  forall typ pub ID m sig k PA H PH, 0 <= k -> length pub = 48%nat -> bytes_ok sig ->
  g_FromCompressed (C1 F) pub = Some PA -> affine1 PA (g1_mul k g1_gen) ->
  hashes_to h typ pub m PH -> affine2 PH H -> in_G2 H ->
  Verify B pub ID m sig typ = Ret SUCCESS <-> sig = sig_bytes (g2_mul k H).
Proof.
  intros F h pairs_one privToPub B HF R GT one mul inv ok e PR DP typ pub ID m sig k PA H PH Hk LP O D AA HT AH HH.
  destruct (affine1_rep _ _ AA) as [JA ZA].
  rewrite (ver_hash _ _ _ _ _ R _ _ _ _ _ _ HT). exact (ver_core F HF pairs_one GT one mul inv ok e PR DP pub sig k PA H PH Hk LP O D JA (or_introl ZA) AH HH).
Qed.
Print Assumptions C86_accepted_partial.
(** For a build that squares correctly the key is the encoding of k times the
    generator *)
Theorem C86_accepted_exact_partial : forall F h pairs_one privToPub B, exact_build F -> runs_bls F h pairs_one privToPub B ->
  forall (GT : Type) (one : GT) mul inv ok e, pairing one mul inv ok e -> decides_pairing pairs_one one mul e ->
  forall typ ID m sig k H PH, 0 <= k -> bytes_ok sig ->
  let pub := key_bytes (g1_mul k g1_gen) in
  hashes_to h typ pub m PH -> affine2 PH H -> in_G2 H ->
  Verify B pub ID m sig typ = Ret SUCCESS <-> sig = sig_bytes (g2_mul k H).
Proof.
  intros F h pairs_one privToPub B [HF HS] R GT one mul inv ok e PR DP typ ID m sig k H PH Hk O pub HT AH HH.
  assert (HI : in_G1 (g1_mul k g1_gen)) by exact (zmul_ok _ _ _ _ _ G1_closed k g1_gen gen_in).
  destruct (key_dec_complete F HF HS _ HI) as (PA & D & JA & ZA).
  rewrite (ver_hash _ _ _ _ _ R _ _ _ _ _ _ HT).
  exact (ver_core F HF pairs_one GT one mul inv ok e PR DP pub sig k PA H PH Hk (proj2 (key_bytes_ok F HF HS _)) O D JA ZA AH HH).
Qed.
Print Assumptions C86_accepted_exact_partial.

(** ** C87: signatures *)
Lemma sign_hash F h pairs_one privToPub B : runs_bls F h pairs_one privToPub B -> forall typ k ID m PH, length k = 32%nat ->
  hashes_to h typ (pub_of B k) m PH ->
  Signature B k ID m typ = Some (Ret (Some (g_ToCompressed (C2 F) (g_MulScalar (C2 F) PH (be2z k mod bls_order))), 0, SUCCESS)).
Proof.
  intros R typ k ID m PH L HT. destruct (C53_signed_point _ _ _ _ _ R k ID m PH L) as [S1 S2]. destruct HT as [[-> E]|[-> E]]; auto.
Qed.
Local Opaque bls_r.
Lemma mul_mod_r k Q : in_G2 Q -> g2_mul (k mod bls_order) Q = g2_mul k Q.
Proof. intros [HO HR]. rewrite <- r_eq. exact (zmul_mod _ _ _ _ _ G2 bls_r k Q HO HR). Qed.
(** The signature is the encoding of the key times the hashed point, if the two
    squarings of the conversion to affine coordinates come out right. *)
Theorem C87_signature_partial : forall F h pairs_one privToPub B, exact_but_square F -> runs_bls F h pairs_one privToPub B ->
  forall typ k ID m H PH, length k = 32%nat ->
  hashes_to h typ (pub_of B k) m PH -> affine2 PH H -> in_G2 H ->
  let Z := ModelBls.pz (g_MulScalar (C2 F) PH (be2z k mod bls_order)) in
  sq_ok F (fst Z) -> sq_ok F (snd Z) ->
  Signature B k ID m typ = Some (Ret (Some (sig_bytes (g2_mul (be2z k) H)), 0, SUCCESS)).
Proof.
  intros F h pairs_one privToPub B HF R typ k ID m H PH L HT AH HH Z S1 S2.
  rewrite (sign_hash _ _ _ _ _ R _ _ _ _ _ L HT). f_equal. f_equal. f_equal. f_equal. f_equal.
  destruct (affine2_rep _ _ AH) as [JH _]. rewrite <- (mul_mod_r _ H HH).
  apply (sig_enc F HF); [|right; left; split; assumption].
  apply (g2_mul_rep F HF); [|exact JH|exact (proj1 HH)]. apply Z.mod_pos_bound. reflexivity.
Qed.
Print Assumptions C87_signature_partial.
(** For a build that squares correctly: always; and Verify accepts it under the
    key GenPubkey gives. *)
Theorem C87_roundtrip_partial : forall F h pairs_one privToPub B, exact_build F -> runs_bls F h pairs_one privToPub B ->
  forall (GT : Type) (one : GT) mul inv ok e, pairing one mul inv ok e -> decides_pairing pairs_one one mul e ->
  forall typ k ID ID' m H PH, length k = 32%nat -> bytes_ok k ->
  let pub := key_bytes (g1_mul (be2z k) g1_gen) in
  GenPubkey B k typ = Ret (Some pub, SUCCESS) ->
  hashes_to h typ pub m PH -> affine2 PH H -> in_G2 H ->
  exists sig, Signature B k ID m typ = Some (Ret (Some sig, 0, SUCCESS)) /\
    sig = sig_bytes (g2_mul (be2z k) H) /\ Verify B pub ID' m sig typ = Ret SUCCESS.
Proof.
  intros F h pairs_one privToPub B HE R GT one mul inv ok e PR DP typ k ID ID' m H PH L O pub HG HT AH HH.
  exists (sig_bytes (g2_mul (be2z k) H)). split; [|split; [reflexivity|]].
  - destruct HE as [HF HS]. apply (C87_signature_partial F h pairs_one privToPub B HF R typ k ID m H PH L); [|exact AH|exact HH|apply HS|apply HS].
    destruct HT as [[T E]|[T E]]; [left; auto|right; split; [exact T|]]. subst typ. unfold pub_of. rewrite HG. exact E.
  - apply (C86_accepted_exact_partial F h pairs_one privToPub B HE R GT one mul inv ok e PR DP typ ID' m _ (be2z k) H PH); try assumption; [|apply sig_bytes_ok|reflexivity].
    apply be2z_bound. exact O.
Qed.
Print Assumptions C87_roundtrip_partial.
(** Several keys, one message (NUL): the aggregate of the signatures is accepted
    under the sum of the keys. *)
Theorem C87_multisig_partial : forall F h pairs_one privToPub B, exact_build F -> runs_bls F h pairs_one privToPub B ->
  forall (GT : Type) (one : GT) mul inv ok e, pairing one mul inv ok e -> decides_pairing pairs_one one mul e ->
  forall ks ID m H PH, ks <> [] -> Forall (fun k => length k = 32%nat /\ bytes_ok k) ks ->
  h m tag_NUL = Ret (Some PH) -> affine2 PH H -> in_G2 H ->
  exists sigs agg,
    Forall2 (fun k sig => Signature B k ID m ECC_CURVE_BLS_NUL = Some (Ret (Some sig, 0, SUCCESS))) ks sigs /\
    AggregateSignatures B ECC_CURVE_BLS_NUL sigs = Ret (Some agg, SUCCESS) /\
    Verify B (key_bytes (g1_mul (fold_right Z.add 0 (map be2z ks)) g1_gen)) ID m agg ECC_CURVE_BLS_NUL = Ret SUCCESS.
Proof.
  intros F h pairs_one privToPub B HE R GT one mul inv ok e PR DP ks ID m H PH N HK E AH HH.
  assert (HM : forall k, in_G2 (g2_mul k H)) by (intros k; exact (zmul_ok _ _ _ _ _ G2_closed k H HH)).
  set (pts := map (fun k => g2_mul (be2z k) H) ks). exists (map sig_bytes pts), (sig_bytes (g2_total pts)).
  assert (HP : Forall in_G2 pts) by (apply Forall_map; apply Forall_forall; intros; apply HM).
  split; [|split].
  - subst pts. clear - HE R HK E AH HH. induction HK as [|k l [L O] HL IH]; cbn [map]; constructor; [|exact IH].
    apply (C87_signature_partial F h pairs_one privToPub B (proj1 HE) R _ k ID m H PH L); [left; auto|exact AH|exact HH|apply (proj2 HE)|apply (proj2 HE)].
  - apply (agg_exact F HE h pairs_one privToPub B R); [left; reflexivity|destruct ks; [congruence|discriminate]|exact HP].
  - assert (S : g2_total pts = g2_mul (fold_right Z.add 0 (map be2z ks)) H /\ 0 <= fold_right Z.add 0 (map be2z ks)).
    { subst pts. clear - HK HH. induction HK as [|k l [L O] HL [IH P]]; cbn [map fold_right]; [split; [reflexivity|lia]|]. split.
      - unfold g2_total in *. cbn [fold_right]. rewrite IH. unfold g2_mul. rewrite (zmul_add _ _ _ _ _ G2_closed) by exact HH. reflexivity.
      - pose proof (be2z_bound k O). lia. }
    destruct S as [-> P].
    apply (C86_accepted_exact_partial F h pairs_one privToPub B HE R GT one mul inv ok e PR DP _ ID m _ _ H PH P); [apply sig_bytes_ok|left; auto|exact AH|exact HH|reflexivity].
Qed.
Print Assumptions C87_multisig_partial.

(** ** The hypotheses can be met: the portable code with squaring by
    multiplication, a pairing by discrete logarithms, a hash that is the
    generator of G2 *)
Definition demo_h (m t : bytes) : outcome (option (ModelBls.point fe2)) := Ret (Some g2One).
Definition demo_pub (k : bytes) : bytes := key_bytes (g1_mul (be2z k) g1_gen).
Definition demo_sig (F : fbuild) (B : backends) : backends :=
  {| bk_drbg := bk_drbg B; bk_entropy := bk_entropy B; bk_rand := bk_rand B; bk_fuel := 5; bk_r1 := bk_r1 B;
     bk_ed_normal := bk_ed_normal B; bk_ed := bk_ed B; bk_x := bk_x B;
     bk_sha256 := bk_sha256 B; bk_ed_baseadd := bk_ed_baseadd B; bk_ed_add := bk_ed_add B;
     bk_bls := bls_pkg F demo_h toy_pairs demo_pub; bk_bls_baseadd := bk_bls_baseadd B;
     bk_bls_aggregate := fun l => Ret (bls_Aggregate F l);
     bk_pasta := bk_pasta B; bk_pasta_baseadd := bk_pasta_baseadd B; bk_pasta_add := bk_pasta_add B;
     bk_pasta_mul := bk_pasta_mul B; bk_pasta_decompress := bk_pasta_decompress B |}.
Example demo_sig_runs F B : runs_bls F demo_h toy_pairs demo_pub (demo_sig F B).
Proof. split; [reflexivity | intros l; reflexivity]. Qed.
Definition demo_key : bytes := repeat 0 31 ++ [7].
Example C87_met B : length demo_key = 32%nat /\ bytes_ok demo_key /\
  GenPubkey (demo_sig repaired B) demo_key ECC_CURVE_BLS_AUG = Ret (Some (key_bytes (g1_mul (be2z demo_key) g1_gen)), SUCCESS) /\
  pairing g2_inf g2_add g2_neg in_G2 toy /\ decides_pairing toy_pairs g2_inf g2_add toy /\
  (forall pub m, hashes_to demo_h ECC_CURVE_BLS_AUG pub m g2One) /\ affine2 g2One g2_gen /\ in_G2 g2_gen.
Proof.
  split; [reflexivity|]. split; [unfold demo_key; cbn [repeat app]; repeat (constructor; [unfold byte_ok; lia|]); constructor|].
  split; [reflexivity|]. split; [exact toy_pairing|]. split; [exact toy_decides|]. split; [right; split; reflexivity|]. split; [exact gen2_affine|exact gen2_in].
Qed.
Example C86_met : exists pub PA, length pub = 48%nat /\ g_FromCompressed (C1 repaired) pub = Some PA /\ affine1 PA (g1_mul 1 g1_gen).
Proof.
  exists (key_bytes g1_gen). destruct (key_dec_complete repaired repaired_exact repaired_square _ gen_in) as (PA & D & J & Z). exists PA.
  split; [exact (proj2 (key_bytes_ok repaired repaired_exact repaired_square _))|]. split; [exact D|].
  unfold g1_mul. rewrite (zmul_1 _ _ _ _ _ G1) by exact (proj1 gen_in). apply aff1; [exact J|]. destruct Z as [Z|Z]; [exact Z|].
  pose proof (g1_iszero_rep repaired _ _ J) as I. rewrite Z in I. discriminate I.
Qed.
(** With the key 7 every message has one signature *)
Example C87_seven B ID m : exists sig,
  Signature (demo_sig repaired B) demo_key ID m ECC_CURVE_BLS_AUG = Some (Ret (Some sig, 0, SUCCESS)) /\
  forall sig', bytes_ok sig' ->
  (Verify (demo_sig repaired B) (demo_pub demo_key) ID m sig' ECC_CURVE_BLS_AUG = Ret SUCCESS <-> sig' = sig).
Proof.
  destruct (C87_met B) as (L & O & HG & PR & DP & HT & AF & IN). destruct C85_builds as [_ HE].
  destruct (C87_roundtrip_partial repaired demo_h toy_pairs demo_pub _ HE (demo_sig_runs repaired B) g2pt g2_inf g2_add g2_neg in_G2 toy PR DP
    ECC_CURVE_BLS_AUG demo_key ID ID m g2_gen g2One L O HG (HT _ m) AF IN) as (sig & S & ES & _).
  exists sig. split; [exact S|]. intros sig' O'. rewrite ES.
  apply (C86_accepted_exact_partial repaired demo_h toy_pairs demo_pub _ HE (demo_sig_runs repaired B) g2pt g2_inf g2_add g2_neg in_G2 toy PR DP
    ECC_CURVE_BLS_AUG ID m sig' (be2z demo_key) g2_gen g2One); [|exact O'|apply HT|exact AF|exact IN]. apply be2z_bound, O.
Qed.
(** C84, C85: the generator of G2 is a signature, a string without the top bit is none *)
Example C84_generator : is_sig (sig_bytes g2_gen) /\ ~ is_sig (repeat 0 96).
Proof.
  split; [exists g2_gen; split; [exact gen2_in|reflexivity]|]. intros I. apply (is_sig_dec portable portable_exact) in I; [|unfold bytes_ok; apply Forall_forall; intros x Hx; apply repeat_spec in Hx; subst; unfold byte_ok; lia|reflexivity].
  destruct I as [P E]. discriminate E.
Qed.
Example C85_met : [g2_gen; g2_gen] <> [] /\ Forall in_G2 [g2_gen; g2_gen].
Proof. split; [discriminate|]. repeat (constructor; [exact gen2_in|]). constructor. Qed.
