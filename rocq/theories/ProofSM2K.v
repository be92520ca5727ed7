(** SM2 encryption and key agreement are those of the standard. *)
From Coq Require Import ZArith List Lia Znumtheory Bool.
From Verif Require Import Base Words EC Curves Group ModelECDSA SpecECDSA ProofECDSA
  SpecSM3 ModelSM3 ProofSM3 SpecSM2 ModelSM2F ModelSM2P ProofSM2P ProofSM2L ModelSM2S ProofSM2S ProofSM2E ModelApi ProofSM2A.
Import ListNotations.
Open Scope Z_scope.

Ltac oks := repeat match goal with
  | |- Forall bytes_ok (_ :: _) => apply Forall_cons
  | |- Forall bytes_ok [] => apply Forall_nil
  end; try assumption; try apply z2be_ok.
Ltac apps := repeat match goal with |- bytes_ok (_ ++ _) => apply bytes_ok_app end; try assumption; try apply z2be_ok.

(** ** Big-endian strings *)
Lemma z2le_mod n z : z2le n (z mod 256 ^ Z.of_nat n) = z2le n z.
Proof. rewrite <- le2z_z2le. rewrite <- (z2le_length n z) at 1. apply z2le_le2z, z2le_ok. Qed.
Lemma z2be_mod n z : z2be n (z mod 256 ^ Z.of_nat n) = z2be n z.
Proof. unfold z2be. now rewrite z2le_mod. Qed.
Lemma z2le_add a b : forall z, z2le (a + b) z = z2le a z ++ z2le b (z / 256 ^ Z.of_nat a).
Proof.
  induction a as [|a IH]; intros z.
  - cbn [Nat.add z2le app]. change (256 ^ Z.of_nat 0) with 1. now rewrite Z.div_1_r.
  - cbn [Nat.add z2le app]. rewrite IH. rewrite Nat2Z.inj_succ, Z.pow_succ_r by lia.
    rewrite Z.div_div by (try lia; apply Z.pow_pos_nonneg; lia). reflexivity.
Qed.
Lemma z2be_add a b z : z2be (a + b) z = z2be b (z / 256 ^ Z.of_nat a) ++ z2be a z.
Proof. unfold z2be. now rewrite z2le_add, rev_app_distr. Qed.

(** ** The key derivation functions *)
Definition kblk (z : bytes) (i : nat) : bytes := SM3Spec.hash (z ++ z2be 4 (Z.of_nat i)).
Lemma kblk_sm3 z i : bytes_ok z -> sm3_of [z; z2be 4 (Z.of_nat i mod 2 ^ 32)] = kblk z i.
Proof.
  intros Hz. rewrite sm3_of_spec by oks.
  cbn [concat]. rewrite app_nil_r. unfold kblk.
  change (2 ^ 32) with (256 ^ Z.of_nat 4). rewrite z2be_mod. reflexivity.
Qed.
Lemma kblk_length z i : bytes_ok z -> length (kblk z i) = 32%nat.
Proof. intros H. rewrite <- kblk_sm3 by exact H. apply sm3_of_length. Qed.
Lemma concat_length32 z l : bytes_ok z -> length (concat (map (kblk z) l)) = (32 * length l)%nat.
Proof.
  intros Hz. induction l as [|i l IH]; [reflexivity|]. cbn [map concat length].
  rewrite app_length, kblk_length, IH by exact Hz. lia.
Qed.

Lemma kdf_blocks_spec z len : bytes_ok z -> forall n i, (0 < n)%nat ->
  kdf_blocks z len n i =
  firstn (32 * (n - 1) + (if (len mod 32 =? 0)%nat then 32 else len mod 32))
    (concat (map (kblk z) (seq (S i) n))).
Proof.
  intros Hz. induction n as [|n IH]; intros i Hn; [lia|]. clear Hn.
  pose proof (Nat.mod_upper_bound len 32 ltac:(lia)) as U.
  cbn [kdf_blocks seq map concat]. replace (i + 1)%nat with (S i) by lia.
  rewrite kblk_sm3 by exact Hz. pose proof (kblk_length z (S i) Hz) as L.
  destruct n as [|n].
  - cbn [Nat.eqb andb kdf_blocks seq map concat]. rewrite !app_nil_r.
    replace (32 * (1 - 1))%nat with 0%nat by reflexivity. cbn [Nat.add].
    destruct (len mod 32 =? 0)%nat; cbn [negb]; [|reflexivity]. symmetry. apply firstn_all2. lia.
  - cbn [Nat.eqb andb]. rewrite IH by lia.
    set (r := if (len mod 32 =? 0)%nat then 32%nat else (len mod 32)%nat).
    replace (32 * (S (S n) - 1) + r)%nat with (32 + (32 * (S n - 1) + r))%nat by lia.
    rewrite <- L at 2. rewrite firstn_app_2. reflexivity.
Qed.
Lemma blocks_count len : (0 < len)%nat ->
  (32 * ((len + 31) / 32 - 1) + (if len mod 32 =? 0 then 32 else len mod 32) = len /\ 0 < (len + 31) / 32)%nat.
Proof.
  intros H0. assert (D := Nat.div_mod len 32 ltac:(lia)).
  pose proof (Nat.mod_upper_bound len 32 ltac:(lia)) as U.
  destruct (len mod 32)%nat as [|r] eqn:E; cbn [Nat.eqb].
  - assert (Q : ((len + 31) / 32 = len / 32)%nat) by (symmetry; apply (Nat.div_unique _ 32 _ 31); lia). lia.
  - assert (Q : ((len + 31) / 32 = len / 32 + 1)%nat) by (symmetry; apply (Nat.div_unique _ 32 _ r); lia). lia.
Qed.
Lemma sm2_kdf_spec x y len : bytes_ok x -> bytes_ok y -> fst (sm2_kdf x y len) = sm2_KDF (x ++ y) len.
Proof.
  intros Hx Hy. unfold sm2_kdf. cbv zeta. cbn [fst]. unfold sm2_KDF. fold (kblk (x ++ y)).
  destruct (Nat.eq_dec len 0) as [->|H0]; [reflexivity|].
  destruct (blocks_count len ltac:(lia)) as [E P].
  rewrite kdf_blocks_spec; [|apply bytes_ok_app; assumption|exact P]. rewrite E. reflexivity.
Qed.
Lemma KDF_length z len : bytes_ok z -> length (sm2_KDF z len) = len.
Proof. intros H. rewrite <- (app_nil_r z), <- sm2_kdf_spec by (assumption || constructor). apply kdf_length. Qed.
Lemma sm2_kdf_flag x y len : bytes_ok x -> bytes_ok y ->
  (snd (sm2_kdf x y len) = true <-> Exists (fun b => b <> 0) (sm2_KDF (x ++ y) len)).
Proof.
  intros Hx Hy. rewrite <- sm2_kdf_spec by assumption.
  pose proof (kdf_length x y len) as L. unfold sm2_kdf in *. cbv zeta in *. cbn [fst snd] in *.
  rewrite firstn_all2 by lia. rewrite existsb_exists, Exists_exists.
  split; intros (b & Hb & Hn); exists b; (split; [exact Hb|]).
  - apply negb_true_iff, Z.eqb_neq in Hn. exact Hn.
  - apply negb_true_iff, Z.eqb_neq. exact Hn.
Qed.

(** The key agreement's own copy of the key derivation. *)
Lemma ka_loop_spec x y zi zr : bytes_ok x -> bytes_ok y -> bytes_ok zi -> bytes_ok zr ->
  let z := x ++ y ++ zi ++ zr in
  forall n i L, 0 <= L < 8192 -> Z.of_nat n = (L + 31) / 32 ->
  ka_kdf_loop x y zi zr n (Z.of_nat (S i)) (8 * L) =
  firstn (Z.to_nat L) (concat (map (kblk z) (seq (S i) n))).
Proof.
  intros Hx Hy Hi Hr z.
  assert (Hz : bytes_ok z) by (unfold z; apps).
  assert (Hb : forall j, sm3_of [x; y; zi; zr; z2be 4 j] = SM3Spec.hash (z ++ z2be 4 j)).
  { intros j. rewrite sm3_of_spec by oks.
    cbn [concat]. rewrite app_nil_r. unfold z. rewrite <- !app_assoc. reflexivity. }
  induction n as [|n IH]; intros i L HL Hn.
  - assert (L = 0).
    { pose proof (Z.div_mod (L + 31) 32 ltac:(lia)). pose proof (Z.mod_pos_bound (L + 31) 32 ltac:(lia)). lia. }
    subst L. reflexivity.
  - cbn [ka_kdf_loop seq map concat]. cbv zeta. rewrite Hb.
    change (SM3Spec.hash (z ++ z2be 4 (Z.of_nat (S i)))) with (kblk z (S i)).
    pose proof (kblk_length z (S i) Hz) as LB.
    destruct (256 <=? 8 * L) eqn:E.
    + apply Z.leb_le in E.
      assert (E2 : (8 * L - 256) mod 2 ^ 16 = 8 * (L - 32)).
      { change (2 ^ 16) with 65536. rewrite Z.mod_small by lia. lia. }
      rewrite E2. replace (Z.of_nat (S i) + 1) with (Z.of_nat (S (S i))) by lia.
      rewrite IH; [|lia|].
      * replace (Z.to_nat L) with (length (kblk z (S i)) + Z.to_nat (L - 32))%nat by lia.
        rewrite firstn_app_2. reflexivity.
      * replace (L + 31) with ((L - 32 + 31) + 1 * 32) in Hn by lia. rewrite Z.div_add in Hn by lia. lia.
    + apply Z.leb_gt in E.
      assert (n = 0%nat). { assert ((L + 31) / 32 < 2) by (apply Z.div_lt_upper_bound; lia). lia. }
      subst n. cbn [ka_kdf_loop seq map concat]. rewrite !app_nil_r.
      replace (8 * L / 8) with L by (rewrite Z.mul_comm, Z.div_mul; lia). reflexivity.
Qed.
Lemma ka_kdf_spec px py zi zr keylen : 0 <= px < 2 ^ 256 -> 0 <= py < 2 ^ 256 ->
  bytes_ok zi -> bytes_ok zr -> 0 <= keylen < 8192 ->
  sm2_ka_kdf px py zi zr ((keylen * 8) mod 2 ^ 16) =
  sm2_KDF (z2be 32 px ++ z2be 32 py ++ zi ++ zr) (Z.to_nat keylen).
Proof.
  intros Hx Hy Hi Hr Hk. unfold sm2_ka_kdf. cbv zeta.
  rewrite (Z.mod_small (keylen * 8)) by (change (2 ^ 16) with 65536; lia).
  rewrite !pad32_big_bytes by assumption.
  set (h := if (keylen * 8) mod 256 =? 0 then _ else _).
  assert (Eh : h = (keylen + 31) / 32).
  { unfold h. pose proof (Z.div_mod keylen 32 ltac:(lia)) as D. pose proof (Z.mod_pos_bound keylen 32 ltac:(lia)) as M.
    change 256 with (32 * 8). rewrite Z.mul_mod_distr_r, Z.div_mul_cancel_r by lia.
    set (q := keylen / 32) in *. set (r := keylen mod 32) in *.
    destruct (r * 8 =? 0) eqn:E; [apply Z.eqb_eq in E|apply Z.eqb_neq in E].
    - apply (Z.div_unique _ _ _ 31); lia.
    - apply (Z.div_unique _ _ _ (r - 1)); lia. }
  clearbody h. subst h.
  assert (0 <= (keylen + 31) / 32) by (apply Z.div_pos; lia).
  replace (keylen * 8) with (8 * keylen) by ring. change 1 with (Z.of_nat 1) at 1.
  rewrite (ka_loop_spec _ _ _ _ (z2be_ok 32 px) (z2be_ok 32 py) Hi Hr); [|exact Hk|rewrite Z2Nat.id by assumption; reflexivity].
  unfold sm2_KDF. fold (kblk (z2be 32 px ++ z2be 32 py ++ zi ++ zr)).
  do 4 f_equal. apply Nat2Z.inj. rewrite Z2Nat.id by assumption.
  rewrite Nat2Z.inj_div, Nat2Z.inj_add, Z2Nat.id by lia. reflexivity.
Qed.
Lemma ka_check_spec v px py zi zr ri rr : byte_ok v -> 0 <= px < 2 ^ 256 -> 0 <= py < 2 ^ 256 ->
  bytes_ok zi -> bytes_ok zr -> bytes_ok ri -> bytes_ok rr ->
  sm2_ka_check v zi zr ri rr px py =
  SM3Spec.hash ([v] ++ z2be 32 py ++ SM3Spec.hash (z2be 32 px ++ zi ++ zr ++ ri ++ rr)).
Proof.
  intros Hv Hx Hy Hi Hr H1 H2. unfold sm2_ka_check. cbv zeta. rewrite !pad32_big_bytes by assumption.
  rewrite (sm3_of_spec [z2be 32 px; zi; zr; ri; rr]) by oks.
  rewrite sm3_of_spec.
  - cbn [concat]. rewrite !app_nil_r. reflexivity.
  - oks; [repeat constructor; apply Hv|].
    rewrite <- sm3_of_spec by oks. apply sm3_of_ok.
Qed.

(** ** The truncated x coordinate *)
Lemma lor128 b : byte_ok b -> Z.lor b 128 = 128 + b mod 128.
Proof.
  intros H. assert (E : forallb (fun b => Z.lor b 128 =? 128 + b mod 128) (map Z.of_nat (seq 0 256)) = true) by (vm_compute; reflexivity).
  rewrite forallb_forall in E. apply Z.eqb_eq, E. apply in_map_iff. exists (Z.to_nat b).
  unfold byte_ok in H. split; [lia|]. apply in_seq. lia.
Qed.
Lemma be2z_cons b l : be2z (b :: l) = b * 256 ^ Z.of_nat (length l) + be2z l.
Proof.
  unfold be2z. cbn [rev]. rewrite <- (rev_length l). generalize (rev l). clear. intros l.
  induction l as [|x l IH]; [cbn; ring|]. cbn [app le2z length]. rewrite IH, Nat2Z.inj_succ, Z.pow_succ_r by lia. ring.
Qed.
Lemma ka_bar_spec x rest : 0 <= x -> be2z (ka_bar (z2be 32 x ++ rest)) = 2 ^ 127 + x mod 2 ^ 127.
Proof.
  intros Hx. unfold ka_bar. change 32%nat with (16 + 16)%nat. rewrite z2be_add, <- app_assoc.
  rewrite skipn_l by apply z2be_length. rewrite firstn_l by apply z2be_length.
  pose proof (be2z_z2be 16 x) as V. pose proof (z2be_ok 16 x) as Ok. pose proof (z2be_length 16 x) as L.
  destruct (z2be 16 x) as [|b bs]; [discriminate|]. cbn [length] in L.
  inversion Ok as [|? ? Hb Hbs]; subst. pose proof (be2z_bound bs Hbs) as B.
  rewrite be2z_cons in *. rewrite lor128 by exact Hb. replace (length bs) with 15%nat in * by lia.
  change (256 ^ Z.of_nat 15) with (2 ^ 120) in *. change (256 ^ Z.of_nat 16) with (2 ^ 128) in *.
  assert (E : x mod 2 ^ 127 = (b mod 128) * 2 ^ 120 + be2z bs).
  { pose proof (Z.div_mod b 128 ltac:(lia)) as D. pose proof (Z.mod_pos_bound b 128 ltac:(lia)) as M.
    pose proof (Z.div_mod x (2 ^ 128) ltac:(lia)) as D2.
    symmetry. apply (Z.mod_unique _ _ (2 * (x / 2 ^ 128) + b / 128)); [left; split; lia|].
    rewrite D2 at 1. rewrite <- V. rewrite D at 1. change (2 ^ 128) with (2 * 2 ^ 127).
    change (2 ^ 127) with (128 * 2 ^ 120). ring. }
  rewrite E. change (2 ^ 127) with (128 * 2 ^ 120). ring.
Qed.

Lemma KDF_ok z len : bytes_ok z -> bytes_ok (sm2_KDF z len).
Proof.
  intros Hz. unfold sm2_KDF. apply bytes_ok_firstn. fold (kblk z). generalize (seq 1 ((len + 31) / 32)).
  intros l. induction l as [|i l IH]; [apply Forall_nil|]. cbn [map concat]. apply bytes_ok_app; [|exact IH].
  rewrite <- kblk_sm3 by exact Hz. apply sm3_of_ok.
Qed.
Lemma sm2_Z_ok c Q id : bytes_ok id -> bytes_ok (sm2_Z c Q id).
Proof.
  intros Hid. unfold sm2_Z. rewrite <- Sm3Sum_spec; [apply Sm3Sum_ok|].
  apps.
Qed.

Section Std.
Variable c : wcurve.
Hypothesis H : sm2_like c.
Local Notation n := (w_n c).
Local Notation G := (w_G c).
Local Notation O := (pinf c).
Local Notation enc := (point_bytes c).
Local Notation "k ** P" := (w_mul c k P) (at level 35).
Let Hv : w_valid c := sl_v c H.

Theorem sm2_encrypt_std B Q m ct : bytes_ok m -> w_on c Q -> Q <> O ->
  Encryption B (enc Q) m SM2 = Some (Ret (Some ct, SUCCESS)) ->
  snd (sm2_encrypt (bk_rand B) (bk_fuel B) (enc Q) m) = true ->
  exists k, sm2_ciphertext c Q k m ct.
Proof using H.
  intros Hm HQ HQ0 HE R. apply encrypt_inv in HE.
  destruct (encrypt_good c Hv (sl_N c H) (sl_p c H) (sl_n c H) (sl_base c H) (sl_mult c H) (bk_rand B) (bk_fuel B)
    Q m HQ HQ0 R ct HE) as (_ & k & Hk & Hf & E).
  exists k. unfold sm2_ciphertext. cbv zeta. change (sm2_x c) with (xb c). change (sm2_y c) with (yb c).
  assert (Ox : bytes_ok (xb c (k ** Q))) by apply z2be_ok.
  assert (Oy : bytes_ok (yb c (k ** Q))) by apply z2be_ok.
  split; [exact Hk|]. split; [apply sm2_kdf_flag; assumption|].
  rewrite E, sm2_kdf_spec by assumption.
  rewrite Sm3Sum_spec by apps. reflexivity.
Qed.

Lemma bar_spec P : bar c P = sm2_xbar c P.
Proof using H.
  unfold bar, sm2_xbar, point_bytes. apply ka_bar_spec. apply (pxb c Hv (sl_p c H)).
Qed.
Lemma shared_spec d r d' r' : shared c d r d' r' = sm2_shared c d r (d' ** G) (r' ** G).
Proof using H.
  unfold shared, sm2_shared, ka_t. rewrite <- !bar_spec.
  rewrite !mulG_mul, mulG_add, mulG_mul by exact Hv.
  apply mulG_eq; [exact Hv|]. rewrite Zmult_mod_idemp_l. reflexivity.
Qed.
Lemma shared_sym d r d' r' : shared c d r d' r' = shared c d' r' d r.
Proof using. unfold shared. f_equal. ring. Qed.

Theorem sm2_ka_std BI BR idI idR dI dR pubI pubR ri RI given keylen key RR si so :
  bytes_ok idI -> bytes_ok idR -> 0 < Z.of_nat (length idI) < 8192 -> 0 < Z.of_nat (length idR) < 8192 ->
  bytes_ok dI -> bytes_ok dR -> bytes_ok (rand32 BI) -> bytes_ok (rand32 BR) ->
  match given with Some g => bytes_ok g | None => True end -> 0 <= keylen < 8192 ->
  GenPubkey BI dI SM2 = Ret (Some pubI, SUCCESS) ->
  GenPubkey BR dR SM2 = Ret (Some pubR, SUCCESS) ->
  KeyAgreement_initiator_step1 BI SM2 = (ri, RI) ->
  KeyAgreement_responder_ElGamal_step1 BR idI idR dR pubR pubI RI keylen given SM2 = Ret (key, RR, si, so, SUCCESS) ->
  snd (sm2_ScalarBaseMult dI) = true -> snd (sm2_ScalarBaseMult dR) = true ->
  snd (sm2_ka_initiator_step1 (rand32 BI)) = true ->
  snd (sm2_ka_responder_step1 (rand32 BR) idI idR dR pubR pubI RI given keylen) = true ->
  be2z ri <> 0 -> ka_regular c (be2z dI) (be2z ri) ->
  let PI := be2z dI ** G in
  let PR := be2z dR ** G in
  let TI := be2z ri ** G in
  exists rr, 0 < rr < n /\
    let TR := rr ** G in
    let U := sm2_shared c (be2z dR) rr PI TI in
    let ZI := sm2_Z c PI idI in
    let ZR := sm2_Z c PR idR in
    pubI = enc PI /\ pubR = enc PR /\ RI = enc TI /\ RR = enc TR /\
    sm2_shared c (be2z dI) (be2z ri) PR TR = U /\
    key = sm2_agreed_key c U ZI ZR (Z.to_nat keylen) /\
    si = sm2_confirm c 3 U ZI ZR TI TR /\
    so = sm2_confirm c 2 U ZI ZR TI TR.
Proof using H.
  intros HI HR LI LR HdI HdR HrI HrR Hg Hkl GI GR S1 S2 R1 R2 R3 R4 Hr0 Reg1.
  pose proof (genpub_legal c H _ _ _ HdI GI) as KI. pose proof (genpub_legal c H _ _ _ HdR GR) as KR.
  rewrite (genpub_good c H BI dI KI R1) in GI. assert (pubI = enc (be2z dI ** G)) by congruence. subst pubI.
  rewrite (genpub_good c H BR dR KR R2) in GR. assert (pubR = enc (be2z dR ** G)) by congruence. subst pubR. clear GI GR R1 R2.
  rewrite step1_eq in S1.
  destruct (step1_good c Hv (sl_N c H) (sl_p c H) (sl_n c H) (sl_base c H) (sl_mult c H) (sl_on c H) (rand32 BI) HrI R3) as (Lr & Hri & Bri & ERI).
  rewrite S1 in Lr, Hri, Bri, ERI. cbn [fst snd] in Lr, Hri, Bri, ERI. specialize (ERI Hr0). subst RI. clear S1 R3.
  assert (HrIne : be2z ri ** G <> O) by (apply (kG_ne c H); clear - Bri Hr0; lia).
  rewrite responder_eq in S2.
  pose proof (responder_good c Hv (sl_N c H) (sl_p c H) (sl_n c H) (sl_par c H) (sl_base c H) (sl_mult c H) (sl_add c H) (sl_on c H)
    (rand32 BR) idI idR dR (be2z dI) (be2z ri) given keylen HI HR LI LR HdR HrR Hg HrIne Reg1 R4) as RG. cbv zeta beta in RG.
  assert (S2' : fst (sm2_ka_responder_step1 (rand32 BR) idI idR dR (enc (be2z dR ** G)) (enc (be2z dI ** G)) (enc (be2z ri ** G)) given keylen)
     = Ret (key, RR, si, so, true))
    by (apply responder_ok; assumption).
  destruct (RG _ _ _ _ S2') as (rr & Brr & _ & ERR & Ekey & Esi & Eso). clear S2 S2' RG R4.
  intros PI PR TI. exists rr. split; [exact Brr|]. cbv zeta. fold PI PR TI in Ekey, Esi, Eso |- *.
  assert (EU : sm2_shared c (be2z dR) rr PI TI = shared c (be2z dI) (be2z ri) (be2z dR) rr).
  { unfold PI, TI. rewrite <- shared_spec. apply shared_sym. }
  rewrite EU. split; [reflexivity|]. split; [reflexivity|]. split; [reflexivity|]. split; [exact ERR|].
  split; [unfold PR; rewrite <- shared_spec; reflexivity|].
  set (U := shared c (be2z dI) (be2z ri) (be2z dR) rr) in *. clearbody U.
  pose proof (sm2_Z_ok c PI idI HI) as OI. pose proof (sm2_Z_ok c PR idR HR) as OR.
  pose proof (pxb c Hv (sl_p c H) U) as Bx. pose proof (pyb c Hv (sl_p c H) U) as By.
  rewrite ka_kdf_spec in Ekey by assumption.
  rewrite ka_check_spec in Esi by (assumption || (subst RR; apply pt_bytes_ok) || apply pt_bytes_ok || (unfold byte_ok; lia)).
  rewrite ka_check_spec in Eso by (assumption || (subst RR; apply pt_bytes_ok) || apply pt_bytes_ok || (unfold byte_ok; lia)).
  subst RR. unfold point_bytes in Esi, Eso. rewrite <- !app_assoc in Esi, Eso.
  split; [exact Ekey|]. split; [exact Esi|exact Eso].
Qed.
End Std.
