(** Properties C88-C91: hashing a message to a point of G2. *)
From Coq Require Import ZArith List Bool Lia Ring Field.
From Verif Require Import Base ModelECDSA ModelApi ModelBlsF SpecBls ModelBls ModelBlsEnc SpecBlsG Fp BlsFp2 Weier Group SpecBlsSig SpecBlsPair SpecBlsHash SpecBlsMap ProofBlsE ProofBlsI ProofBlsJ ProofBlsK ProofBlsL ProofBlsN ProofBlsO ProofBlsQ ProofBlsR ProofBlsT ProofBlsS PropsBlsApi PropsBlsSig ProofBlsM BlsPrimes.
Import ListNotations.
Local Open Scope Z_scope.
Add Field KFP1 : Kp1.
Add Field KFP2 : Kp2.

(** a hash function with 32-byte output *)
Definition hash32 (H : bytes -> bytes) : Prop := forall x, bytes_ok (H x) /\ length (H x) = 32%nat.

(** ** C88: hash_to_field *)
(** Element i is the i-th group of 64 bytes of expand_message_xmd modulo p, in the
    portable build too. *)
Theorem C88_hash_to_field : forall F H, exact_but_square F -> hash32 H ->
  forall msg tag n, Z.of_nat (length tag) <= 255 -> (0 < n <= 127)%nat ->
  exists l, hashToFp H F msg tag n = Ret (Some l) /\ length l = n /\
    forall i x, nth_error l i = Some x -> fe_of x (fval (field_element H msg tag n i)).
Proof. exact hash_field. Qed.
Print Assumptions C88_hash_to_field.

(** ** The map is a function on all of F_p(i) *)
Lemma swu_fun u x1 Q Q' : swu_point u x1 Q -> swu_point u x1 Q' -> Q = Q'.
Proof.
  intros (x & y & -> & C & E & S) (x' & y' & -> & C' & E' & S').
  assert (x = x') by (destruct C as [[A B]|[A B]], C' as [[A' B']|[A' B']]; (congruence || contradiction)). subst x'. f_equal.
  assert (P : q2_mul (q2_sub y y') (q2_add y y') = z2) by (transitivity (q2_sub (q2_mul y y) (q2_mul y' y')); [ring|]; rewrite E, E'; ring).
  apply int2 in P. destruct P as [P|P].
  - transitivity (q2_add (q2_sub y y') y'); [ring|]. rewrite P. ring.
  - assert (Y : y = q2_opp y') by (transitivity (q2_sub (q2_add y y') y'); [ring|]; rewrite P; ring).
    pose proof (sgn0_neg y' (e1_y x y' E')) as N. rewrite <- Y, S, S' in N. destruct (sgn0 u); discriminate.
Qed.
Lemma swu_some u x1 x : is_square (e1_rhs x) ->
  ((is_square (e1_rhs x1) /\ x = x1) \/ (~ is_square (e1_rhs x1) /\ x = swu_x2 u x1)) -> exists Q, swu_point u x1 Q.
Proof.
  intros [b E] C. destruct (bool_dec (sgn0 b) (sgn0 u)) as [S|S].
  - exists (Weier.Aff _ x b). exists x, b. auto.
  - exists (Weier.Aff _ x (q2_opp b)). exists x, (q2_opp b). refine (conj eq_refl (conj C (conj _ _))); [rewrite <- E; ring|].
    rewrite sgn0_neg by exact (e1_y x b E). destruct (sgn0 b), (sgn0 u); (reflexivity || congruence).
Qed.
Theorem C89_map_total : forall u, exists Q, sswu u Q /\ e1_on Q /\ g2_on (iso_map Q) /\ forall Q', sswu u Q' -> Q' = Q.
Proof.
  intros u. assert (X : exists Q, sswu u Q).
  { unfold sswu. destruct (square_dec (e1_rhs (swu_x1 u))) as [S|S].
    - apply (swu_some u _ (swu_x1 u) S). left. auto.
    - apply (swu_some u _ (swu_x2 u (swu_x1 u))); [|right; auto]. apply x2_square; [|exact S]. intros ->. apply S. rewrite xr_eq. exact xr_sq. }
  destruct X as [Q HQ]. exists Q. split; [exact HQ|].
  assert (O : e1_on Q) by (destruct HQ as (x & y & -> & _ & E & _); exact E).
  split; [exact O|]. split; [apply iso_on_E, O|]. intros Q' H. exact (swu_fun _ _ _ _ H HQ).
Qed.
Print Assumptions C89_map_total.
Lemma code_sswu u Q : u <> z2 -> swu_point u (code_x1 u) Q -> sswu u Q.
Proof. intros N. unfold code_x1, sswu. destruct (q2_dec u z2); [contradiction|]. auto. Qed.

(** ** C89: EncodeToCurve *)
Lemma enc_value F H : exact_build F -> hash32 H -> forall msg tag, Z.of_nat (length tag) <= 255 ->
  exists U, g2_EncodeToCurve H F msg tag = Ret (Some (g2_encode_u F U)) /\ rep2 U (hash_u H msg tag 1 0).
Proof.
  intros [HF _] HH msg tag Ht. destruct (hash_field F H HF HH msg tag 2 Ht ltac:(lia)) as (l & E & L & V).
  unfold g2_EncodeToCurve. rewrite E. destruct l as [|a [|b [|c l]]]; try discriminate. exists (a, b). split; [reflexivity|].
  split; [exact (V 0%nat a eq_refl)|exact (V 1%nat b eq_refl)].
Qed.
(** Never fails; the result is the point of RFC 9380 unless the hashed element is 0 *)
Theorem C89_encode_partial : forall F H, exact_build F -> hash32 H ->
  forall msg tag, Z.of_nat (length tag) <= 255 ->
  exists P S, g2_EncodeToCurve H F msg tag = Ret (Some P) /\ in_G2 S /\ (S = g2_inf \/ affine2 P S) /\ rep_g2 P S /\
    let u := hash_u H msg tag 1 0 in
    (u <> q2 bls_p 0 0 -> forall Q, sswu u Q -> S = g2_mul h_eff (iso_map Q)).
Proof.
  intros F H HE HH msg tag Ht. destruct (enc_value F H HE HH msg tag Ht) as (U & -> & RU). destruct HE as [HF HS].
  destruct (encode_u_rep F HF HS U _ RU) as (Q & SW & J & I & A). exists (g2_encode_u F U), (g2_mul h_eff (iso_map Q)).
  refine (conj eq_refl (conj I (conj A (conj J _)))). intros u N Q' SQ. rewrite (swu_fun _ _ _ _ SQ (code_sswu _ _ N SW)). reflexivity.
Qed.
Print Assumptions C89_encode_partial.
(** For the element 0 the code takes the other sign of the first candidate, and its
    point of E1 is not the one of the RFC. *)
Theorem C89_zero_refuted : forall F, exact_build F -> forall u, rep2 u (q2 bls_p 0 0) ->
  exists x y X Y, swuMapG2 F u = (x, y) /\ rep2 x X /\ rep2 y Y /\ e1_on (Weier.Aff _ X Y) /\ ~ sswu (q2 bls_p 0 0) (Weier.Aff _ X Y).
Proof.
  intros F [HF HS] u RU. destruct (swu_rep F HF HS u _ RU) as (x & y & X & Y & E & RX & RY & SW & ON).
  exists x, y, X, Y. refine (conj E (conj RX (conj RY (conj ON _)))). intros S.
  assert (EX : X = xz).
  { destruct SW as (x' & y' & EQ & C & _). injection EQ as <- <-. unfold code_x1 in C. destruct (q2_dec z2 z2) as [_|N]; [|congruence]. rewrite xz_eq in C.
    destruct C as [[_ C]|[C _]]; [exact C|]. exfalso. apply C. exact xz_sq. }
  assert (EX' : X = xr).
  { destruct S as (x' & y' & EQ & C & _). injection EQ as <- <-. rewrite xr_eq in C.
    destruct C as [[_ C]|[C _]]; [exact C|]. exfalso. apply C. exact xr_sq. }
  rewrite EX in EX'. assert (D : fst xz = fst xr) by (rewrite EX'; reflexivity).
  apply (f_equal fval) in D. unfold xz, xr, q2 in D. cbn [fst] in D. rewrite !fval_of in D. revert D.
  Local Transparent bls_p. vm_compute. discriminate. Local Opaque bls_p.
Qed.
Print Assumptions C89_zero_refuted.

(** ** C90: HashToCurve *)
Lemma hash_value F H : exact_build F -> hash32 H -> forall msg tag, Z.of_nat (length tag) <= 255 ->
  exists U0 U1, g2_HashToCurve H F msg tag = Ret (Some (g2_from_u F U0 U1)) /\ rep2 U0 (hash_u H msg tag 2 0) /\ rep2 U1 (hash_u H msg tag 2 1).
Proof.
  intros [HF _] HH msg tag Ht. destruct (hash_field F H HF HH msg tag 4 Ht ltac:(lia)) as (l & E & L & V).
  unfold g2_HashToCurve. rewrite E. destruct l as [|a [|b [|c [|d [|e l]]]]]; try discriminate. exists (a, b), (c, d). split; [reflexivity|].
  split; split; [exact (V 0%nat a eq_refl)|exact (V 1%nat b eq_refl)|exact (V 2%nat c eq_refl)|exact (V 3%nat d eq_refl)].
Qed.
(** The two elements of F_p(i), when they are not 0 and not mapped to one point:
    the result is that of RFC 9380, section 3: clear_cofactor(map_to_curve(u0) +
    map_to_curve(u1)). The code adds on E1; the isogeny is a homomorphism. *)
Lemma sswu_on u Q : sswu u Q -> e1_on Q.
Proof. intros (x & y & -> & _ & E & _). exact E. Qed.
Theorem C90_hash_partial : forall F H, exact_build F -> hash32 H ->
  forall msg tag, Z.of_nat (length tag) <= 255 ->
  let u0 := hash_u H msg tag 2 0 in let u1 := hash_u H msg tag 2 1 in
  u0 <> q2 bls_p 0 0 -> u1 <> q2 bls_p 0 0 ->
  forall Q0 Q1, sswu u0 Q0 -> sswu u1 Q1 -> Q0 <> Q1 ->
  exists P, g2_HashToCurve H F msg tag = Ret (Some P) /\
    let S := g2_mul h_eff (g2_add (iso_map Q0) (iso_map Q1)) in in_G2 S /\ rep_g2 P S /\ (S = g2_inf \/ affine2 P S).
Proof.
  intros F H HE HH msg tag Ht u0 u1 N0 N1 Q0 Q1 S0 S1 NE. destruct (hash_value F H HE HH msg tag Ht) as (U0 & U1 & -> & R0 & R1).
  exists (g2_from_u F U0 U1). split; [reflexivity|]. destruct HE as [HF HS].
  rewrite <- (iso_add Q0 Q1 (sswu_on _ _ S0) (sswu_on _ _ S1)).
  destruct (from_u_rep F HF HS U0 U1 _ _ R0 R1) as (Q0' & Q1' & W0 & W1 & C).
  rewrite (swu_fun _ _ _ _ (code_sswu _ _ N0 W0) S0), (swu_fun _ _ _ _ (code_sswu _ _ N1 W1) S1) in C. destruct (C NE) as (J & I & A). cbv zeta. auto.
Qed.
Print Assumptions C90_hash_partial.

(** ** C91: signing and verifying with the hash of RFC 9380 *)
(** the message [m] under the tag [t] has the hash [S], another point than infinity *)
Definition rfc_hash (H : bytes -> bytes) (m t : bytes) (S : g2pt) : Prop :=
  hash_u H m t 2 0 <> q2 bls_p 0 0 /\ hash_u H m t 2 1 <> q2 bls_p 0 0 /\
  exists Q0 Q1, sswu (hash_u H m t 2 0) Q0 /\ sswu (hash_u H m t 2 1) Q1 /\ Q0 <> Q1 /\
    S = g2_mul h_eff (g2_add (iso_map Q0) (iso_map Q1)) /\ S <> g2_inf.
Lemma rfc_hashes F H m t S : exact_build F -> hash32 H -> Z.of_nat (length t) <= 255 -> rfc_hash H m t S ->
  exists PH, g2_HashToCurve H F m t = Ret (Some PH) /\ affine2 PH S /\ in_G2 S.
Proof.
  intros HE HH Ht (N0 & N1 & Q0 & Q1 & S0 & S1 & NE & -> & NI).
  destruct (C90_hash_partial F H HE HH m t Ht N0 N1 Q0 Q1 S0 S1 NE) as (P & E & I & J & A). exists P. split; [exact E|].
  split; [|exact I]. destruct A as [A|A]; [contradiction|exact A].
Qed.
Definition tag_of (typ : Z) : bytes := if typ =? ECC_CURVE_BLS_NUL then tag_NUL else tag_AUG.
Definition hashed (typ : Z) (pub m : bytes) : bytes := if typ =? ECC_CURVE_BLS_NUL then m else pub ++ m.
Theorem C91_roundtrip_partial : forall F H pairs_one privToPub B, exact_build F -> hash32 H ->
  runs_bls F (g2_HashToCurve H F) pairs_one privToPub B ->
  forall (GT : Type) (one : GT) mul inv ok e, pairing one mul inv ok e -> decides_pairing pairs_one one mul e ->
  forall typ k ID ID' m S, bls_id typ -> length k = 32%nat -> bytes_ok k ->
  let pub := key_bytes (g1_mul (be2z k) g1_gen) in
  GenPubkey B k typ = Ret (Some pub, SUCCESS) ->
  rfc_hash H (hashed typ pub m) (tag_of typ) S ->
  exists sig, sig = sig_bytes (g2_mul (be2z k) S) /\
    Signature B k ID m typ = Some (Ret (Some sig, 0, SUCCESS)) /\
    forall sig', bytes_ok sig' -> (Verify B pub ID' m sig' typ = Ret SUCCESS <-> sig' = sig).
Proof.
  intros F H pairs_one privToPub B HE HH R GT one mul inv ok e PR DP typ k ID ID' m S Ht L O pub HG RH.
  assert (TL : Z.of_nat (length (tag_of typ)) <= 255) by (destruct Ht as [-> | ->]; vm_compute; discriminate).
  destruct (rfc_hashes F H _ _ S HE HH TL RH) as (PH & E & AF & IN).
  assert (HT : hashes_to (g2_HashToCurve H F) typ pub m PH).
  { destruct Ht as [-> | ->]; [left|right]; split; (reflexivity || exact E). }
  destruct (C87_roundtrip_partial F _ pairs_one privToPub B HE R GT one mul inv ok e PR DP typ k ID ID' m S PH L O HG HT AF IN) as (sig & SG & ES & _).
  exists sig. split; [exact ES|]. split; [exact SG|]. intros sig' O'. rewrite ES.
  apply (C86_accepted_exact_partial F _ pairs_one privToPub B HE R GT one mul inv ok e PR DP typ ID' m sig' (be2z k) S PH); try assumption.
  apply be2z_bound, O.
Qed.
Print Assumptions C91_roundtrip_partial.

(** ** The hypotheses can be met *)
Definition demo_H (x : bytes) : bytes := repeat 0 31 ++ [if nth 32 x 0 =? 6 then 7 else nth 32 x 0 mod 256].
Example C88_met : exact_but_square portable /\ exact_build repaired /\ hash32 demo_H /\ Z.of_nat (length tag_NUL) <= 255.
Proof.
  refine (conj (proj1 C85_builds) (conj (proj2 C85_builds) (conj _ _))); [|vm_compute; discriminate].
  intros x. split; [|reflexivity]. apply Forall_app. split; [apply Forall_forall; intros y Hy; apply repeat_spec in Hy; subst; unfold byte_ok; lia|].
  constructor; [|constructor]. unfold byte_ok. destruct (_ =? 6); [lia|]. apply Z.mod_pos_bound. lia.
Qed.
Example C90_met : let u0 := hash_u demo_H [1; 2; 3] tag_NUL 2 0 in let u1 := hash_u demo_H [1; 2; 3] tag_NUL 2 1 in
  u0 <> q2 bls_p 0 0 /\ u1 <> q2 bls_p 0 0 /\ exists Q0 Q1, sswu u0 Q0 /\ sswu u1 Q1 /\ Q0 <> Q1.
Proof.
  cbv zeta. assert (V : fval (fst (hash_u demo_H [1; 2; 3] tag_NUL 2 0)) = 2 ^ 256 + 2 /\ fval (fst (hash_u demo_H [1; 2; 3] tag_NUL 2 1)) = 5 * 2 ^ 256 + 7).
  { unfold hash_u, field_element. cbn [fst]. rewrite !fval_of. Local Transparent bls_p. vm_compute. split; reflexivity. Local Opaque bls_p. }
  set (u0 := hash_u demo_H [1; 2; 3] tag_NUL 2 0) in *. set (u1 := hash_u demo_H [1; 2; 3] tag_NUL 2 1) in *. clearbody u0 u1.
  destruct V as [V0 V1].
  assert (N0 : u0 <> z2) by (intros ->; cbn [q2 fst] in V0; rewrite fval_of in V0; discriminate).
  assert (N1 : u1 <> z2) by (intros ->; cbn [q2 fst] in V1; rewrite fval_of in V1; discriminate).
  refine (conj N0 (conj N1 _)). destruct (C89_map_total u0) as (Q0 & S0 & _). destruct (C89_map_total u1) as (Q1 & S1 & _).
  exists Q0, Q1. refine (conj S0 (conj S1 _)). intros E. destruct S0 as (x0 & y0 & E0 & _ & _ & G0). destruct S1 as (x1 & y1 & E1 & _ & _ & G1).
  rewrite E0, E1 in E. injection E as _ Ey. rewrite Ey, G1 in G0. unfold sgn0 in G0. rewrite V0, V1 in G0. discriminate G0.
Qed.

(** A hash whose two elements are mapped to points with the generator of G2 as the
    image of their sum. *)
Definition demo_tab : list Z := [0; 0; 5; 0; 1; 0x14b1144db8f0219e5442e2c029a9741c; 0x450e39d80cf2a93ce6364dcf8154acc17839ed7d39a1afa94e7aefb2931b4272; 0x1313d108b2f9e9dc64a3c230c225829; 0x3944af0fc832b3780dbf05f1ee53360ff9c19a7946d800ede1758ee36f74edf6].
Definition demo_G (x : bytes) : bytes := z2be 32 (nth (Z.to_nat (nth 32 x 0)) demo_tab 0).
Lemma demo_len x : length (demo_G x) = 32%nat. Proof. apply z2be_length. Qed.
Lemma strxor_len a b : length a = 32%nat -> length b = 32%nat -> length (strxor a b) = 32%nat.
Proof. intros A B. unfold strxor. rewrite map_length, combine_length, A, B. reflexivity. Qed.
Lemma demo_succ m t len i : (i < 255)%nat -> b_succ demo_G m t len i = z2be 32 (nth (S i) demo_tab 0).
Proof.
  intros Hi. assert (X : forall a k r, length a = 32%nat -> 0 <= k < 256 -> demo_G (a ++ I2OSP k 1 ++ r) = z2be 32 (nth (Z.to_nat k) demo_tab 0)).
  { intros a k r A K. unfold demo_G. rewrite app_nth2 by lia. rewrite A. rewrite Nat.sub_diag. replace (nth 0 (I2OSP k 1 ++ r) 0) with k; [reflexivity|]. change (k = k mod 256). symmetry. apply Z.mod_small. exact K. }
  destruct i as [|i].
  - cbn [b_succ]. apply X; [apply demo_len|lia].
  - cbn [b_succ]. rewrite X; [f_equal; f_equal; lia| |lia]. apply strxor_len; [apply demo_len|]. destruct i; apply demo_len.
Qed.
Lemma demo_byte m t n : (t = tag_NUL \/ t = tag_AUG) -> (n < 127)%nat ->
  expand_message_xmd demo_G m t (Z.of_nat n * 64) = concat (map (fun i => z2be 32 (nth (S i) demo_tab 0)) (seq 0 (2 * n))).
Proof.
  intros _ Hn. unfold expand_message_xmd. replace (Z.to_nat ((Z.of_nat n * 64 + 31) / 32)) with (2 * n)%nat.
  - rewrite firstn_all2.
    + f_equal. apply map_ext_in. intros i Hi. apply in_seq in Hi. apply demo_succ. lia.
    + assert (L : forall l, length (concat (map (b_succ demo_G m t (Z.of_nat n * 64)) l)) = (32 * length l)%nat).
      { induction l as [|i l IH]; [reflexivity|]. cbn [map concat length]. rewrite app_length, IH. destruct i; cbn [b_succ]; rewrite demo_len; lia. }
      rewrite L, seq_length. lia.
  - replace (Z.of_nat n * 64 + 31) with (31 + (2 * Z.of_nat n) * 32) by lia. rewrite Z.div_add by lia. change (31 / 32) with 0. lia.
Qed.
Example C91_hash_met : forall m t, (t = tag_NUL \/ t = tag_AUG) -> hash32 demo_G /\ rfc_hash demo_G m t (g2_mul h_eff g2_gen).
Proof.
  assert (HH : hash32 demo_G) by (intros x; split; [apply z2be_ok|apply z2be_length]). intros m t Ht. split; [exact HH|].
  assert (V : hash_u demo_G m t 2 0 = d_u0 /\ hash_u demo_G m t 2 1 = d_u1).
  { split; unfold hash_u, field_element; rewrite !(demo_byte m t _ Ht) by lia; apply q2_modz; vm_cast_no_check (@eq_refl bool true). }
  destruct V as [V0 V1]. unfold rfc_hash. rewrite V0, V1. refine (conj d_u0_ne (conj d_u1_ne _)).
  exists (Weier.Aff _ d_x0 d_y0), (Weier.Aff _ d_x1 d_y1). refine (conj d_sw0 (conj d_sw1 (conj d_ne (conj (sum_form _ _ _ _ (sswu_on _ _ d_sw0) (sswu_on _ _ d_sw1) d_sum) heff_gen)))).
Qed.
Definition demo_map (B : backends) : backends :=
  {| bk_drbg := bk_drbg B; bk_entropy := bk_entropy B; bk_rand := bk_rand B; bk_fuel := 5; bk_r1 := bk_r1 B;
     bk_ed_normal := bk_ed_normal B; bk_ed := bk_ed B; bk_x := bk_x B;
     bk_sha256 := bk_sha256 B; bk_ed_baseadd := bk_ed_baseadd B; bk_ed_add := bk_ed_add B;
     bk_bls := bls_pkg repaired (g2_HashToCurve demo_G repaired) toy_pairs demo_pub; bk_bls_baseadd := bk_bls_baseadd B;
     bk_bls_aggregate := fun l => Ret (bls_Aggregate repaired l);
     bk_pasta := bk_pasta B; bk_pasta_baseadd := bk_pasta_baseadd B; bk_pasta_add := bk_pasta_add B;
     bk_pasta_mul := bk_pasta_mul B; bk_pasta_decompress := bk_pasta_decompress B |}.
(** the key 7: every message has one signature under either tag *)
Example C91_seven B typ ID m : bls_id typ -> exists sig, Signature (demo_map B) demo_key ID m typ = Some (Ret (Some sig, 0, SUCCESS)) /\
  forall sig', bytes_ok sig' -> (Verify (demo_map B) (demo_pub demo_key) ID m sig' typ = Ret SUCCESS <-> sig' = sig).
Proof.
  intros Ht. destruct (C87_met B) as (L & O & _ & PR & DP & _). destruct C85_builds as [_ HE].
  assert (HG : GenPubkey (demo_map B) demo_key typ = Ret (Some (key_bytes (g1_mul (be2z demo_key) g1_gen)), SUCCESS)) by (destruct Ht as [-> | ->]; reflexivity).
  destruct (C91_hash_met (hashed typ (demo_pub demo_key) m) (tag_of typ)) as [HH RH]; [destruct Ht as [-> | ->]; [left|right]; reflexivity|].
  destruct (C91_roundtrip_partial repaired demo_G toy_pairs demo_pub (demo_map B) HE HH (conj eq_refl (fun l => eq_refl)) g2pt g2_inf g2_add g2_neg in_G2 toy PR DP
    typ demo_key ID ID m _ Ht L O HG RH) as (sig & _ & S & V). exists sig. split; [exact S|exact V].
Qed.
