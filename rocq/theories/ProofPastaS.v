(** Package pasta, continued: keys, signatures and point operations. *)
Require Import ZArith List Bool Lia Znumtheory Ring Field.
Require Import Verif.Base Verif.Fp Verif.Weier Verif.Jac Verif.Group Verif.EC Verif.Curves Verif.SpecECDSA Verif.SpecPasta.
Require Import Verif.ModelPastaCode Verif.ProofPastaF Verif.ModelPasta Verif.ProofPastaG Verif.ProofPastaH Verif.ProofPastaI Verif.ProofPastaP.
Import ListNotations.
Open Scope Z_scope.
Add Field KFp : Kfp.
Local Notation F := (fp_of pp).

Lemma px_bound P : 0 <= px pallas P < pp.
Proof. destruct P; cbn [px]; [split; [discriminate | reflexivity]|]. apply fval_bound. reflexivity. Qed.
Lemma py_bound P : 0 <= py pallas P < pp.
Proof. destruct P; cbn [py]; [split; [discriminate | reflexivity]|]. apply fval_bound. reflexivity. Qed.
Lemma F_px P : fval (F (px pallas P)) = px pallas P.
Proof. rewrite fval_of. apply Z.mod_small, px_bound. Qed.
Lemma F_py P : fval (F (py pallas P)) = py pallas P.
Proof. rewrite fval_of. apply Z.mod_small, py_bound. Qed.
Lemma lt_256 x : 0 <= x < pp -> 0 <= x < 256 ^ Z.of_nat 32.
Proof. intros H. pose proof pp_bound. rewrite pow256_32. assert (2 ^ 255 < 2 ^ 256) by reflexivity. lia. Qed.
Lemma be_z2be x : 0 <= x < pp -> be2z (z2be 32 x) = x.
Proof. intros H. rewrite be2z_z2be. apply Z.mod_small, lt_256, H. Qed.
Lemma point_bytes_length P : length (point_bytes pallas P) = 64%nat.
Proof. unfold point_bytes. rewrite app_length, !z2be_length. reflexivity. Qed.
Lemma point_bytes_ok P : bytes_ok (point_bytes pallas P).
Proof. apply bytes_ok_app; apply z2be_ok. Qed.
Lemma firstn_z2be x l : firstn 32 (z2be 32 x ++ l) = z2be 32 x.
Proof. rewrite <- (z2be_length 32 x) at 1. rewrite firstn_app, firstn_all, Nat.sub_diag. cbn [firstn]. apply app_nil_r. Qed.
Lemma skipn_z2be x l : skipn 32 (z2be 32 x ++ l) = l.
Proof. rewrite <- (z2be_length 32 x) at 1. rewrite skipn_app, skipn_all, Nat.sub_diag. reflexivity. Qed.

(** ** Decoding *)
Lemma dec64 p : bytes_ok p -> length p = 64%nat -> exists a, Affine_FromBigEndianBytes p = Some (Some a) /\ aok a /\
  fe (aX a) = F (be2z (firstn 32 p)) /\ fe (aY a) = F (be2z (skipn 32 p)).
Proof.
  intros Hb Hl. unfold Affine_FromBigEndianBytes. rewrite Hl. cbn [Nat.eqb orb negb].
  eexists. split; [reflexivity|]. cbn [aX aY].
  destruct (be_to_fp (firstn 32 p) (bytes_ok_firstn _ _ Hb)) as [X1 X2]; [rewrite firstn_length_le; lia|].
  destruct (be_to_fp (skipn 32 p) (bytes_ok_skipn _ _ Hb)) as [Y1 Y2]; [rewrite skipn_length; lia|].
  split; [exact (conj X1 Y1) | exact (conj X2 Y2)].
Qed.
Lemma dec64_point P : w_on pallas P -> exists a, Affine_FromBigEndianBytes (point_bytes pallas P) = Some (Some a) /\ aok a /\ apt a = P.
Proof.
  intros Ho. destruct (dec64 (point_bytes pallas P) (point_bytes_ok P) (point_bytes_length P)) as (a & E & A & X & Y).
  exists a. split; [exact E|]. split; [exact A|]. unfold point_bytes in X, Y. rewrite firstn_z2be in X. rewrite skipn_z2be in Y.
  rewrite be_z2be in X by apply px_bound. rewrite be_z2be in Y by apply py_bound.
  apply coords_apt; [exact Ho | rewrite X; apply F_px | rewrite Y; apply F_py].
Qed.
Lemma dec65 p : length p = 65%nat -> nth 0 p 0 = 4 -> Affine_FromBigEndianBytes p = Some (Some affine0).
Proof. intros Hl H0. unfold Affine_FromBigEndianBytes. rewrite Hl, H0. reflexivity. Qed.
Lemma affine0_ok : aok affine0 /\ apt affine0 = pinf pallas.
Proof.
  split; [split; exact zero4_okp|]. apply coords_apt; [exact on_inf | |]; cbn [aX aY affine0]; rewrite fe_zero4; reflexivity.
Qed.

Lemma fval_opp (y : fp pp) : y <> F 0 -> fval (fp_opp y) = pp - fval y.
Proof.
  intros N. pose proof (fval_bound _ y (eq_refl : 0 < pp)) as B.
  assert (fval y <> 0) by (intros E; apply N; rewrite <- (fp_of_val _ y), E; reflexivity).
  unfold fp_opp. rewrite fval_of. replace (- fval y) with ((pp - fval y) + (-1) * pp) by ring.
  rewrite Z_mod_plus_full. apply Z.mod_small. lia.
Qed.
Lemma odd_opp (y : fp pp) : y <> F 0 -> Z.odd (fval (fp_opp y)) = negb (Z.odd (fval y)).
Proof. intros N. rewrite fval_opp by exact N. rewrite Z.odd_sub. change (Z.odd pp) with true. destruct (Z.odd (fval y)); reflexivity. Qed.

(** Decompress: cx with a root of cx^3 + 5 of the requested parity, or the old y *)
Lemma Decompress_ok pt cx u odd : rep cx u ->
  (exists yl y, Decompress pt cx odd = Some (mkaffine cx yl, true) /\ rep yl y /\
     fp_mul y y = fp_add (fp_mul (fp_mul u u) u) (F (w_b pallas)) /\ (y <> F 0 -> Z.odd (fval y) = odd)) \/
  (Decompress pt cx odd = Some (mkaffine cx (aY pt), false) /\
     forall y, fp_mul y y <> fp_add (fp_mul (fp_mul u u) u) (F (w_b pallas))).
Proof.
  intros Hx. unfold Decompress. cbv zeta.
  assert (Hy2 : rep (FpAdd (FpMul (FpSquare cx) cx) GroupCoeffB) (fp_add (fp_mul (fp_mul u u) u) (F (w_b pallas)))) by ProofPastaG.reps.
  destruct (FpSqrt_ok _ _ Hy2) as [(x & ξ & E & Hr & Eq) | (E & N)]; rewrite E.
  - left. destruct (FpFrom_ok x (proj1 (proj1 Hr))) as [K1 K2]. rewrite lval_odd by apply K1. rewrite K2, (proj2 Hr).
    destruct (Bool.eqb (Z.odd (fval ξ)) odd) eqn:Eo.
    + apply eqb_prop in Eo. exists x, ξ. repeat split; auto; apply Hr.
    + apply eqb_false_iff in Eo. exists (FpOpp x), (fp_opp ξ).
      split; [reflexivity|]. split; [apply rep_opp; exact Hr|]. split; [rewrite <- Eq; ring|].
      intros N. rewrite odd_opp. { destruct (Z.odd (fval ξ)), odd; cbn; congruence. }
      intros ->. apply N. ring.
  - right. split; [reflexivity | exact N].
Qed.
Lemma dec33 p : bytes_ok p -> length p = 33%nat ->
  (exists a, Affine_FromBigEndianBytes p = Some (Some a) /\ aok a /\ fe (aX a) = F (be2z (skipn 1 p)) /\
     w_on pallas (Aff _ (fe (aX a)) (fe (aY a))) /\ (fe (aY a) <> F 0 -> Z.odd (fval (fe (aY a))) = (nth 0 p 0 =? 3))) \/
  (exists a, Affine_FromBigEndianBytes p = Some (Some a) /\ aok a /\ fe (aX a) = F (be2z (skipn 1 p)) /\ fe (aY a) = F 0 /\
     forall y, ~ w_on pallas (Aff _ (fe (aX a)) y)).
Proof.
  intros Hb Hl. unfold Affine_FromBigEndianBytes. rewrite Hl. cbn [Nat.eqb orb negb].
  destruct (be_to_fp (skipn 1 p) (bytes_ok_skipn _ _ Hb)) as [X1 X2]; [rewrite skipn_length; lia|].
  assert (Oeq : forall x y, w_on pallas (Aff _ x y) <-> fp_mul y y = fp_add (fp_mul (fp_mul x x) x) (F (w_b pallas))).
  { intros x y. unfold w_on. cbn [on_curve]. rewrite Fa. split; intros ->; ring. }
  destruct (Decompress_ok affine0 _ _ (nth 0 p 0 =? 3) (conj X1 X2)) as [(yl & y & E & Hr & Eq & Po) | (E & N)]; rewrite E.
  - left. eexists. split; [reflexivity|]. cbn [aX aY]. split; [split; [exact X1 | apply Hr]|]. split; [exact X2|].
    rewrite (proj2 Hr), X2. split; [exact (proj2 (Oeq _ _) Eq) | exact Po].
  - right. eexists. split; [reflexivity|]. cbn [aX aY]. split; [split; [exact X1 | exact zero4_okp]|]. split; [exact X2|].
    split; [exact fe_zero4|]. intros y O. apply (N y). rewrite X2 in O. exact (proj1 (Oeq _ _) O).
Qed.
Lemma dec33_point P : w_on pallas P -> P <> pinf pallas -> exists a,
  Affine_FromBigEndianBytes (compressed_bytes pallas P) = Some (Some a) /\ aok a /\ apt a = P.
Proof.
  intros Ho N. destruct P as [|x y]; [exfalso; apply N; reflexivity|].
  assert (Hb : bytes_ok (compressed_bytes pallas (Aff _ x y))).
  { unfold compressed_bytes. constructor; [|apply z2be_ok]. pose proof (Z.mod_pos_bound (py pallas (Aff _ x y)) 2 eq_refl). red. lia. }
  assert (Hl : length (compressed_bytes pallas (Aff _ x y)) = 33%nat) by (unfold compressed_bytes; cbn [length]; rewrite z2be_length; reflexivity).
  assert (Ex : F (be2z (skipn 1 (compressed_bytes pallas (Aff _ x y)))) = x).
  { unfold compressed_bytes. cbn [skipn]. rewrite be_z2be by apply px_bound. cbn [px]. apply fp_of_val. }
  assert (Ep : (nth 0 (compressed_bytes pallas (Aff _ x y)) 0 =? 3) = Z.odd (fval y)).
  { unfold compressed_bytes. cbn [nth py]. rewrite Zmod_odd. destruct (Z.odd (fval y)); reflexivity. }
  destruct (dec33 _ Hb Hl) as [(a & E & A & X & O & Po) | (a & E & A & X & Y & Bad)]; rewrite ?Ex in *.
  - exists a. split; [exact E|]. split; [exact A|]. rewrite X, Ep in *. clear E Hb Hl Ex Ep.
    assert (Eq : fp_mul (fe (aY a)) (fe (aY a)) = fp_mul y y).
    { unfold w_on in O, Ho. cbn [on_curve] in O, Ho. rewrite O, Ho. reflexivity. }
    assert (Ey : fe (aY a) = y).
    { destruct (sq_eq _ _ Eq) as [K|K]; [exact K|].
      destruct (fp_dec y (F 0)) as [->|Ny]; [rewrite K; ring|].
      assert (Na : fe (aY a) <> F 0).
      { rewrite K. intros Z0. apply Ny. transitivity (fp_opp (fp_opp y)); [ring|]. rewrite Z0. ring. }
      specialize (Po Na). rewrite K, odd_opp in Po by exact Ny. destruct (Z.odd (fval y)); discriminate Po. }
    apply coords_apt; [exact Ho | rewrite X; reflexivity | rewrite Ey; reflexivity].
  - exfalso. rewrite X in Bad. exact (Bad y Ho).
Qed.

(** A key or point argument that stands for the point P. *)
Definition enc_ok (P : pt pallas) (b : bytes) : Prop :=
  b = point_bytes pallas P \/ (P <> pinf pallas /\ b = compressed_bytes pallas P).
Lemma dec_ok P b : w_on pallas P -> enc_ok P b -> exists a, Affine_FromBigEndianBytes b = Some (Some a) /\ aok a /\ apt a = P.
Proof. intros Ho [-> | [N ->]]; [apply dec64_point | apply dec33_point]; assumption. Qed.

(** ** Keys *)
Lemma mul_modq k P : w_on pallas P -> w_mul pallas (k mod qq) P = w_mul pallas k P.
Proof.
  intros Ho. assert (G : forall c k P, w_field_ok c -> w_on c P -> w_mul c (w_n c) P = pinf c -> w_mul c (k mod w_n c) P = w_mul c k P).
  { clear. intros c k P Hf Ho E. apply (zmul_mod _ _ _ _ _ (w_group c Hf)); assumption. }
  exact (G pallas k P pf Ho (pallas_zmul_order P Ho)).
Qed.
Lemma valid_private_iff k : bytes_ok k -> valid_private k = true <-> length k = 32%nat /\ be2z k < 2 ^ 254.
Proof.
  intros Hb. unfold valid_private. rewrite andb_true_iff, Nat.eqb_eq, Z.eqb_eq. split; intros [Hl H]; (split; [exact Hl|]);
    (destruct k as [|b t]; [discriminate Hl|]); cbn [nth] in *; injection Hl as Hl; inversion Hb as [|b' t' B T]; subst;
    rewrite be2z_cons, Hl in *; pose proof (be2z_bound t T) as Bt; rewrite Hl in Bt; change (256 ^ Z.of_nat 31) with (2 ^ 248) in *;
    red in B.
  - assert (b < 64); [|assert (2 ^ 254 = 64 * 2 ^ 248) by reflexivity; nia].
    destruct (Z.lt_ge_cases b 64) as [|C]; [assumption|exfalso].
    assert (E : Z.land b 192 = 64 * (b / 64)).
    { clear - B. assert (forallb (fun b => Z.land b 192 =? 64 * (b / 64)) (map Z.of_nat (seq 0 256)) = true) as K by reflexivity.
      rewrite forallb_forall in K. apply Z.eqb_eq, K. rewrite in_map_iff. exists (Z.to_nat b). split; [lia|]. apply in_seq. lia. }
    rewrite E in H. assert (1 <= b / 64) by (apply Z.div_le_lower_bound; lia). lia.
  - assert (b < 64) by (assert (2 ^ 254 = 64 * 2 ^ 248) by reflexivity; nia).
    clear - B H0. assert (forallb (fun b => Z.land b 192 =? 0) (map Z.of_nat (seq 0 64)) = true) as K by reflexivity.
    rewrite forallb_forall in K. apply Z.eqb_eq, K. rewrite in_map_iff. exists (Z.to_nat b). split; [lia|]. apply in_seq. lia.
Qed.
Theorem pasta_GenPublicKey_ok k : bytes_ok k -> length k = 32%nat -> be2z k < 2 ^ 254 ->
  pasta_GenPublicKey k = Some (point_bytes pallas (w_mul pallas (be2z k) (w_G pallas))).
Proof.
  intros Hb Hl Hk. unfold pasta_GenPublicKey. rewrite (proj2 (valid_private_iff k Hb)) by (split; assumption).
  destruct (be_to_fq k Hb Hl) as [K1 K2].
  destruct (AffineScalarMul_ok _ AffineOne K1 AffineOne_ok) as [M1 M2]; [rewrite apt_G; exact G_on|].
  rewrite Affine_bytes by exact M1. rewrite M2, K2, apt_G, fval_of, mul_modq by exact G_on. reflexivity.
Qed.
Lemma pasta_GenPublicKey_none k : bytes_ok k -> pasta_GenPublicKey k = None <-> length k <> 32%nat \/ 2 ^ 254 <= be2z k.
Proof.
  intros Hb. unfold pasta_GenPublicKey. destruct (valid_private k) eqn:E.
  - apply valid_private_iff in E; [|exact Hb]. split; [discriminate|]. lia.
  - split; [|reflexivity]. intros _. destruct (Nat.eq_dec (length k) 32) as [L|L]; [right | left; exact L].
    destruct (Z.lt_ge_cases (be2z k) (2 ^ 254)) as [C|C]; [|exact C].
    rewrite (proj2 (valid_private_iff k Hb)) in E by (split; assumption). discriminate.
Qed.

(** ** Messages *)
Definition msg_ok (m : message) : Prop := Forall okp (m_prefix m) /\ Forall okp (m_suffix m) /\ Forall okp (m_iv m) /\ length (m_iv m) = 3%nat.
Definition mina_hash (m : message) : list (fp pp) -> fp pp := poseidon pp mina_rks mina_mds (map fe (m_iv m)).
Definition mina_challenge (m : message) : pt pallas -> Z -> Z :=
  challenge pallas (mina_hash m) (map fe (m_prefix m)) (map fe (m_suffix m)).
Lemma challenge_bound m P r : 0 <= mina_challenge m P r < pp.
Proof. apply fval_bound. reflexivity. Qed.
Lemma MessageHash_ok pub a r m : Affine_FromBigEndianBytes pub = Some (Some a) -> aok a -> okp r -> msg_ok m ->
  MessageHash pub r m = Some (z2be 32 (mina_challenge m (apt a) (fval (fe r)))).
Proof.
  intros E [A1 A2] Hr (M1 & M2 & M3 & M4). unfold MessageHash. rewrite E.
  rewrite PoseidonDigest_ok; [|exact M3 | exact M4|].
  - unfold mina_challenge, challenge, mina_hash. rewrite !map_app. cbn [map].
    destruct (apt_coords a) as [-> ->]. rewrite !fp_of_val. reflexivity.
  - apply Forall_app. split; [exact M1|]. repeat (constructor; [assumption|]). exact M2.
Qed.

(** ** Signing *)
Lemma mask_nonce_ok k : bytes_ok k -> length k = 32%nat -> bytes_ok (mask_nonce k) /\ length (mask_nonce k) = 32%nat /\ be2z (mask_nonce k) < 2 ^ 250.
Proof.
  intros Hb Hl. destruct k as [|b t]; [discriminate|]. cbn [mask_nonce length] in *. inversion Hb as [|b' t' B T]; subst.
  assert (C : 0 <= Z.land b 3 < 4).
  { change 3 with (Z.ones 2). rewrite Z.land_ones by lia. apply Z.mod_pos_bound. reflexivity. }
  split; [constructor; [red; lia | exact T]|]. split; [exact Hl|]. injection Hl as Hl.
  rewrite be2z_cons, Hl. pose proof (be2z_bound t T) as Bt. rewrite Hl in Bt. change (256 ^ Z.of_nat 31) with (2 ^ 248) in *.
  assert (2 ^ 250 = 4 * 2 ^ 248) by reflexivity. nia.
Qed.
Lemma draw_nonce_ok rnd : (forall i, bytes_ok (rnd i) /\ length (rnd i) = 32%nat) -> forall fuel i k,
  draw_nonce rnd fuel i = Some k -> exists j, okq k /\ fval (sc k) = be2z (mask_nonce (rnd j)) /\ 0 < be2z (mask_nonce (rnd j)) < 2 ^ 250.
Proof.
  intros Hr. induction fuel as [|fuel IH]; intros i k; [discriminate|]. cbn [draw_nonce].
  destruct (Hr i) as [B L]. destruct (mask_nonce_ok _ B L) as (B' & L' & Lt).
  destruct (be_to_fq _ B' L') as [K1 K2].
  destruct (NonZero (BigEndianBytesToFqMontgomeryArray (mask_nonce (rnd i))) =? 0) eqn:E; [apply IH|].
  intros H. apply ProofW64.some_inj in H. subst k. exists i. split; [exact K1|].
  pose proof (be2z_bound _ B') as [Pos _]. pose proof qq_bound as Q. assert (2 ^ 250 < 2 ^ 254) by reflexivity.
  assert (V : fval (sc (BigEndianBytesToFqMontgomeryArray (mask_nonce (rnd i)))) = be2z (mask_nonce (rnd i))).
  { rewrite K2, fval_of. apply Z.mod_small. lia. }
  split; [exact V|]. split; [|exact Lt].
  destruct (Z.eq_dec (be2z (mask_nonce (rnd i))) 0) as [Z0|]; [exfalso | lia].
  rewrite Z0 in K2. pose proof (proj2 (NonZero_sc _ K1) K2) as C. exact (eq_true_false_abs _ C E).
Qed.

(** Adding any two representatives: when they stand for the same finite point without
    being identical, GroupAdd answers infinity. *)
Lemma GroupAdd_any g h : gok g -> gok h -> w_on pallas (gpt g) -> w_on pallas (gpt h) ->
  gok (GroupAdd g h) /\ (gpt (GroupAdd g h) = w_add pallas (gpt g) (gpt h) \/
    gpt g = gpt h /\ gpt g <> pinf pallas /\ gpt (GroupAdd g h) = pinf pallas).
Proof.
  intros Hg Hh Og Oh.
  assert (D : (gpt g = gpt h -> gpt g = pinf pallas \/ g = h) \/ (gpt g = gpt h /\ gpt g <> pinf pallas /\ g <> h)).
  { destruct (IsZero g) eqn:Zg.
    - left. intros _. left. apply IsZero_pt; assumption.
    - assert (Ng : gpt g <> pinf pallas) by (intros E; apply (proj2 (IsZero_pt g Hg)) in E; congruence).
      assert (Dg : {g = h} + {g <> h}) by (repeat decide equality).
      destruct Dg as [E|E]; [left; intros _; right; exact E|].
      destruct (IsZero h) eqn:Zh.
      + left. intros K. exfalso. apply Ng. rewrite K. apply IsZero_pt; assumption.
      + assert (Dp : {gpt g = gpt h} + {gpt g <> gpt h}).
        { destruct (gpt g) as [|x1 y1], (gpt h) as [|x2 y2]; [left; reflexivity | right; discriminate | right; discriminate |].
          destruct (fp_dec x1 x2) as [->|]; [|right; congruence]. destruct (fp_dec y1 y2) as [->|]; [left; reflexivity | right; congruence]. }
        destruct Dp as [K|K]; [right; repeat split; assumption | left; intros; contradiction]. }
  destruct D as [D | (E & Nz & Ne)].
  { destruct (GroupAdd_ok g h Hg Hh Og Oh D) as [A1 A2]. split; [exact A1 | left; exact A2]. }
  assert (Ng : fe (gZ g) <> F 0) by (intros K; apply Nz; apply gpt_zero; exact K).
  assert (Nh : fe (gZ h) <> F 0) by (intros K; apply Nz; rewrite E; apply gpt_zero; exact K).
  enough (K : gok (GroupAdd g h) /\ gpt (GroupAdd g h) = pinf pallas).
  { destruct K as [K1 K2]. split; [exact K1|]. right. split; [exact E | split; [exact Nz | exact K2]]. }
  unfold GroupAdd.
  destruct (IsZero g) eqn:Ezg. { apply IsZero_iff in Ezg; [contradiction | exact Hg]. }
  destruct (IsZero h) eqn:Ezh. { apply IsZero_iff in Ezh; [contradiction | exact Hh]. }
  destruct (FpEquals (gX g) (gX h) && FpEquals (gY g) (gY h) && FpEquals (gZ g) (gZ h)) eqn:Er.
  { exfalso. rewrite !andb_true_iff in Er. destruct Er as ((E1 & E2) & E3).
    destruct Hg as (G1 & G2 & G3), Hh as (H1 & H2 & H3).
    apply FpEquals_iff in E1, E2, E3; try assumption. apply fe_inj in E1, E2, E3; try assumption.
    apply Ne. destruct g, h; cbn in *; congruence. }
  clear Ezg Ezh Er Ne Nz Og Oh. unfold gpt in E. rewrite !jac_ne in E by assumption.
  destruct g as [X1 Y1 Z1], h as [X2 Y2 Z2].
  destruct Hg as (A1 & A2 & A3), Hh as (B1 & B2 & B3). cbn [gX gY gZ] in *.
  apply rep_self in A1, A2, A3, B1, B2, B3. cbv zeta.
  generalize dependent (fe X1). generalize dependent (fe Y1). generalize dependent (fe Z1).
  generalize dependent (fe X2). generalize dependent (fe Y2). generalize dependent (fe Z2).
  intros z2 B3 N2 y2 B2 x2 B1 z1 A3 N1 y1 A2 x1 A1 E.
  assert (Ex : fp_div x1 (fp_mul z1 z1) = fp_div x2 (fp_mul z2 z2)) by congruence. clear E.
  assert (U : fp_mul x2 (fp_mul z1 z1) = fp_mul x1 (fp_mul z2 z2)).
  { transitivity (fp_mul (fp_div x2 (fp_mul z2 z2)) (fp_mul (fp_mul z1 z1) (fp_mul z2 z2))); [field; exact N2|].
    rewrite <- Ex. field. exact N1. }
  unfold pinf. eapply rep3z; [ProofPastaG.reps | ProofPastaG.reps | ProofPastaG.reps |].
  replace (fp_sub (fp_mul x2 (fp_mul z1 z1)) (fp_mul x1 (fp_mul z2 z2))) with (F 0) by (rewrite U; ring). ring.
Qed.

Section Sig.
Variable json : bytes -> option message.

Theorem pasta_Sign_ok rnd fuel d msg m sig : (forall i, bytes_ok (rnd i) /\ length (rnd i) = 32%nat) ->
  bytes_ok d -> length d = 32%nat -> be2z d < 2 ^ 254 -> json msg = Some m -> msg_ok m ->
  draw_nonce rnd fuel 0 <> None ->
  pasta_Sign json rnd fuel d msg = Some (Some sig) <->
  exists k, draw_nonce rnd fuel 0 = Some k /\
    sig = mina_sig pallas (mina_hash m) (map fe (m_prefix m)) (map fe (m_suffix m)) (be2z d) (fval (sc k)).
Proof.
  intros Hr Hd Ld Bd Hj Hm Hf. unfold pasta_Sign. rewrite pasta_GenPublicKey_ok by assumption. rewrite Hj.
  destruct (draw_nonce rnd fuel 0) as [k|] eqn:En; [clear Hf | congruence].
  destruct (draw_nonce_ok rnd Hr _ _ _ En) as (j & Hk & Vk & Bk). cbv zeta.
  destruct (AffineScalarMul_ok _ AffineOne Hk AffineOne_ok) as [M1 M2]; [rewrite apt_G; exact G_on|].
  rewrite apt_G in M2. set (R := AffineScalarMul k AffineOne) in *. clearbody R.
  destruct (apt_coords R) as [RX RY]. rewrite M2 in RX, RY.
  set (P := w_mul pallas (be2z d) (w_G pallas)) in *.
  assert (OP : w_on pallas P) by (apply mul_on; exact G_on).
  destruct (dec64_point P OP) as (a & Ea & Ha & Pa).
  rewrite (MessageHash_ok _ _ _ _ Ea Ha (proj1 M1) Hm). rewrite Pa, <- RX.
  set (e := mina_challenge m P _) in *.
  destruct (be_to_fq (z2be 32 e) (z2be_ok _ _) (z2be_length _ _)) as [E1 E2].
  assert (Be : 0 <= e < pp) by apply challenge_bound. rewrite be_z2be in E2 by exact Be.
  destruct (be_to_fq d Hd Ld) as [D1 D2].
  destruct (FqMul_ok _ _ E1 D1) as [F1 F2]. rewrite E2, D2 in F2.
  set (k' := if FieldIsOdd (aY R) then FqOpp k else k).
  assert (K' : okq k' /\ sc k' = fp_of qq (if Z.odd (py pallas (w_mul pallas (fval (sc k)) (w_G pallas))) then - fval (sc k) else fval (sc k))).
  { unfold k'. rewrite FieldIsOdd_ok by apply M1. rewrite <- RY. destruct (Z.odd _).
    - destruct (FqOpp_ok k Hk) as [O1 O2]. split; [exact O1|]. rewrite O2, fp_of_opp, fp_of_val. reflexivity.
    - split; [exact Hk|]. symmetry. apply fp_of_val. }
  destruct K' as [K1 K2]. destruct (FqAdd_ok _ _ K1 F1) as [S1 S2]. rewrite K2, F2 in S2.
  rewrite fq_to_be by exact S1. rewrite S2, <- fp_of_mul, <- fp_of_add, fval_of.
  rewrite Affine_bytes by exact M1. unfold point_bytes. rewrite firstn_z2be, M2.
  unfold mina_sig. cbv zeta. fold P. fold (mina_challenge m). fold e.
  split.
  - intros H. do 2 apply ProofW64.some_inj in H. subst sig. exists k. split; reflexivity.
  - intros (k2 & E & ->). apply ProofW64.some_inj in E. subst k2. reflexivity.
Qed.

(** ** Verification *)
Lemma gneg_ok g : gok g -> gok (mkgroup (gX g) (FpOpp (gY g)) (gZ g)) /\ gpt (mkgroup (gX g) (FpOpp (gY g)) (gZ g)) = w_neg pallas (gpt g).
Proof.
  intros (Hx & Hy & Hz). destruct (FpOpp_ok _ Hy) as [O1 O2]. split; [split; [exact Hx | split; [exact O1 | exact Hz]]|].
  unfold gpt. cbn [gX gY gZ]. rewrite O2. destruct (fp_dec (fe (gZ g)) (F 0)) as [E|N].
  - rewrite E, !jac_0. reflexivity.
  - rewrite !jac_ne by exact N. unfold w_neg. cbn [pneg]. f_equal. field. exact N.
Qed.
Lemma verify_eq pub a msg m sig : Affine_FromBigEndianBytes pub = Some (Some a) -> aok a -> w_on pallas (apt a) ->
  json msg = Some m -> msg_ok m -> bytes_ok sig -> length sig = 64%nat ->
  let r := be2z (firstn 32 sig) in let s := be2z (skipn 32 sig) in
  let S := w_mul pallas s (w_G pallas) in
  let E := w_neg pallas (w_mul pallas (mina_challenge m (apt a) (r mod pp)) (apt a)) in
  exists T, (T = w_add pallas S E \/ S = E /\ S <> pinf pallas /\ T = pinf pallas) /\
  pasta_Verify json pub msg sig = Some (Z.even (py pallas T) && (px pallas T =? r mod pp)).
Proof.
  intros Ea Ha Oa Hj Hm Hs Ls r s S E. unfold pasta_Verify. rewrite Ls, Ea, Hj. cbn [Nat.eqb negb]. cbv zeta.
  destruct (be_to_fp (firstn 32 sig) (bytes_ok_firstn _ _ Hs)) as [R1 R2]; [rewrite firstn_length_le; lia|]. fold r in R2.
  destruct (be_to_fq (skipn 32 sig) (bytes_ok_skipn _ _ Hs)) as [S1 S2]; [rewrite skipn_length; lia|]. fold s in S2.
  rewrite (MessageHash_ok _ _ _ _ Ea Ha R1 Hm). rewrite R2, fval_of.
  set (e := mina_challenge m (apt a) (r mod pp)) in *.
  destruct (be_to_fq (z2be 32 e) (z2be_ok _ _) (z2be_length _ _)) as [E1 E2].
  assert (Be : 0 <= e < pp) by apply challenge_bound. rewrite be_z2be in E2 by exact Be.
  destruct (AffineToGroup_ok AffineOne AffineOne_ok) as [G1 G2]. rewrite apt_G in G2.
  destruct (AffineToGroup_ok a Ha) as [A1 A2].
  destruct (GroupScalarMul_ok _ _ S1 G1) as [SG1 SG2]; [rewrite G2; exact G_on|]. rewrite S2, G2, fval_of, mul_modq in SG2 by exact G_on.
  fold S in SG2.
  destruct (GroupScalarMul_ok _ _ E1 A1) as [EP1 EP2]; [rewrite A2; exact Oa|]. rewrite E2, A2, fval_of, mul_modq in EP2 by exact Oa.
  destruct (gneg_ok _ EP1) as [N1 N2]. rewrite EP2 in N2. fold E in N2.
  set (sg := GroupScalarMul _ (AffineToGroup AffineOne)) in *. clearbody sg.
  set (ep := GroupScalarMul _ (AffineToGroup a)) in *. clearbody ep.
  assert (OS : w_on pallas S) by (apply mul_on; exact G_on).
  assert (OE : w_on pallas E) by (apply gen_neg_on; [exact pf | apply mul_on; exact Oa]).
  destruct (GroupAdd_any _ _ SG1 N1) as [T1 T2]; [rewrite SG2; exact OS | rewrite N2; exact OE |].
  rewrite SG2, N2 in T2. set (t := GroupAdd _ _) in *. clearbody t. exists (gpt t). split; [exact T2|]. clear T2.
  destruct (AffineFromGroup_ok t T1) as (AF & AX & AY).
  set (rf := AffineFromGroup t) in *. clearbody rf. destruct AF as [AF1 AF2].
  destruct (FpFrom_ok (aY rf) (proj1 AF2)) as [Y1 Y2].
  f_equal. f_equal.
  - pose proof (lval_odd _ (proj1 Y1)) as Lo. rewrite Y2, AY in Lo. rewrite <- Z.negb_odd, <- Lo.
    set (z := limb 0 _). change 1 with (Z.ones 1). rewrite Z.land_ones by lia. change (2 ^ 1) with 2. change (Z.ones 1) with 1.
    pose proof (Z.mod_pos_bound z 2 eq_refl) as Bz. clear - Bz.
    destruct (z mod 2 =? 0) eqn:Z0, (z mod 2 =? 1) eqn:Z1; try reflexivity; rewrite ?Z.eqb_eq, ?Z.eqb_neq in *; lia.
  - apply eq_true_iff_eq. rewrite FpEquals_iff, Z.eqb_eq, R2 by assumption. rewrite <- AX. split; intros K.
    + rewrite K. apply fval_of.
    + apply fp_eq. rewrite fval_of. exact K.
Qed.
End Sig.
