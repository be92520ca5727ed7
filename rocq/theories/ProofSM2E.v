(** SM2 encryption and key agreement when no field multiplication underflows. *)
From Coq Require Import ZArith List Lia Znumtheory Bool.
From Verif Require Import Base Words EC Curves Group ModelECDSA SpecECDSA ProofECDSA
  SpecSM3 ModelSM3 ProofSM3 SpecSM2 ModelSM2F ModelSM2P ProofSM2P ProofSM2L ModelSM2S ProofSM2S.
Import ListNotations.
Open Scope Z_scope.

(** ** The key derivation produces exactly the bytes asked for *)
Lemma kdf_blocks_length xy len n : forall i, (0 < n)%nat ->
  length (kdf_blocks xy len n i) =
  (32 * (n - 1) + (if (len mod 32 =? 0)%nat then 32 else len mod 32))%nat.
Proof.
  induction n as [|n IH]; intros i Hn; [lia|]. cbn [kdf_blocks].
  rewrite app_length. destruct n as [|n].
  - cbn [Nat.eqb andb kdf_blocks length]. pose proof (Nat.mod_upper_bound len 32 ltac:(lia)).
    destruct (len mod 32 =? 0)%nat; cbn [negb].
    + rewrite sm3_of_length. lia.
    + rewrite firstn_length, sm3_of_length. lia.
  - cbn [Nat.eqb andb]. rewrite sm3_of_length, IH by lia. lia.
Qed.
Lemma kdf_length x y len : length (fst (sm2_kdf x y len)) = len.
Proof.
  unfold sm2_kdf. cbv zeta. cbn [fst].
  destruct (Nat.eq_dec len 0) as [->|H0]; [reflexivity|].
  assert (D := Nat.div_mod len 32 ltac:(lia)).
  pose proof (Nat.mod_upper_bound len 32 ltac:(lia)) as U.
  destruct (len mod 32)%nat as [|r] eqn:E.
  - assert (Q : ((len + 31) / 32 = len / 32)%nat).
    { symmetry. apply (Nat.div_unique _ 32 _ 31); lia. }
    rewrite Q, kdf_blocks_length by lia. rewrite E. cbn [Nat.eqb]. lia.
  - assert (Q : ((len + 31) / 32 = len / 32 + 1)%nat).
    { symmetry. apply (Nat.div_unique _ 32 _ r); lia. }
    rewrite Q, kdf_blocks_length by lia. rewrite E. cbn [Nat.eqb]. lia.
Qed.

Lemma xor_bytes_length a b : length (xor_bytes a b) = Nat.min (length a) (length b).
Proof. unfold xor_bytes. now rewrite map_length, combine_length. Qed.
Lemma xor_bytes_back : forall a m, length a = length m -> xor_bytes a (xor_bytes a m) = m.
Proof.
  induction a as [|x a IH]; intros [|y m] H; try discriminate; [reflexivity|].
  unfold xor_bytes in *. cbn [combine map fst snd]. rewrite IH by (cbn in H; lia).
  rewrite <- Z.lxor_assoc, Z.lxor_nilpotent, Z.lxor_0_l. reflexivity.
Qed.

(** ** Key length of the agreement *)
Lemma ka_kdf_loop_length x y zi zr n : forall i bits, 0 <= bits < 2 ^ 16 -> bits mod 8 = 0 ->
  Z.of_nat n = (bits + 255) / 256 ->
  Z.of_nat (length (ka_kdf_loop x y zi zr n i bits)) = bits / 8.
Proof.
  change (2 ^ 16) with 65536.
  induction n as [|n IH]; intros i bits Hb H8 Hn.
  - assert (bits = 0).
    { pose proof (Z.div_mod (bits + 255) 256 ltac:(lia)) as D.
      pose proof (Z.mod_pos_bound (bits + 255) 256 ltac:(lia)). lia. }
    subst. reflexivity.
  - cbn [ka_kdf_loop]. rewrite app_length, Nat2Z.inj_add.
    destruct (256 <=? bits) eqn:E.
    + apply Z.leb_le in E. rewrite sm3_of_length.
      change (2 ^ 16) with 65536. rewrite (Z.mod_small (bits - 256)) by lia.
      rewrite IH.
      * replace bits with ((bits - 256) + 32 * 8) at 2 by lia. rewrite Z.div_add by lia. lia.
      * lia.
      * replace (bits - 256) with (bits + (-32) * 8) by lia. rewrite Z_mod_plus_full. exact H8.
      * replace (bits + 255) with ((bits - 256 + 255) + 1 * 256) in Hn by lia.
        rewrite Z.div_add in Hn by lia. lia.
    + apply Z.leb_gt in E.
      assert (n = 0%nat).
      { assert ((bits + 255) / 256 < 2) by (apply Z.div_lt_upper_bound; lia). lia. }
      subst n. cbn [ka_kdf_loop length]. rewrite firstn_length, sm3_of_length.
      assert (0 <= bits / 8 < 32) by (split; [apply Z.div_pos; lia|apply Z.div_lt_upper_bound; lia]).
      lia.
Qed.
Lemma ka_kdf_length px py zi zr keylen : 0 <= keylen < 2 ^ 16 ->
  Z.of_nat (length (sm2_ka_kdf px py zi zr ((keylen * 8) mod 2 ^ 16))) = keylen mod 8192.
Proof.
  intros H. unfold sm2_ka_kdf. cbv zeta.
  change (2 ^ 16) with (8192 * 8) at 1. change (2 ^ 16) with (8192 * 8) at 1.
  change (2 ^ 16) with (8192 * 8) at 1. change (2 ^ 16) with (8192 * 8) at 1.
  rewrite Z.mul_mod_distr_r by lia.
  pose proof (Z.mod_pos_bound keylen 8192 ltac:(lia)) as B. set (L := keylen mod 8192) in *.
  rewrite ka_kdf_loop_length.
  - apply Z.div_mul. lia.
  - change (2 ^ 16) with 65536. lia.
  - apply Z.mod_mul. lia.
  - pose proof (Z.div_mod (L * 8) 256 ltac:(lia)) as D.
    pose proof (Z.mod_pos_bound (L * 8) 256 ltac:(lia)) as M.
    set (q := L * 8 / 256) in *. set (r := (L * 8) mod 256) in *.
    assert (0 <= q) by (apply Z.div_pos; lia).
    destruct (r =? 0) eqn:E; [apply Z.eqb_eq in E|apply Z.eqb_neq in E]; rewrite Z2Nat.id by lia.
    + apply (Z.div_unique _ _ _ 255); lia.
    + apply (Z.div_unique _ _ _ (r - 1)); lia.
Qed.

Lemma lor_128 b : byte_ok b -> byte_ok (Z.lor b 128).
Proof.
  unfold byte_ok. intros H. change 256 with (2 ^ 8). apply lor_bound; [lia|exact H|]. split; [lia|reflexivity].
Qed.
Lemma ka_bar_ok pub : bytes_ok pub -> bytes_ok (ka_bar pub).
Proof.
  intros H. unfold ka_bar.
  assert (H1 : bytes_ok (firstn 16 (skipn 16 pub))) by (apply bytes_ok_firstn, bytes_ok_skipn, H).
  destruct (firstn 16 (skipn 16 pub)) as [|b bs]; [exact H1|].
  inversion H1; subst. apply Forall_cons; [now apply lor_128|assumption].
Qed.

Lemma firstn_l {A} k (a b : list A) : length a = k -> firstn k (a ++ b) = a.
Proof. intros <-. rewrite firstn_app, firstn_all, Nat.sub_diag. apply app_nil_r. Qed.
Lemma skipn_l {A} k (a b : list A) : length a = k -> skipn k (a ++ b) = b.
Proof. intros <-. rewrite skipn_app, skipn_all, Nat.sub_diag. reflexivity. Qed.

Section Gen.
Variable c : wcurve.
Hypothesis Hv : w_valid c.
Hypothesis Hb : w_b c mod w_p c <> 0.
Hypothesis HN : order_is c.
Hypothesis Hp : size256 (w_p c).
Hypothesis Hn : size256 (w_n c).
Hypothesis Hpar : params_are c.
Local Notation n := (w_n c).
Local Notation G := (w_G c).
Local Notation "k ** P" := (w_mul c k P) (at level 39).
Hypothesis Hbase : forall k, bytes_ok k -> good (sm2_ScalarBaseMult k)
  (fun r => r = (px c (be2z k ** G), py c (be2z k ** G))).
Hypothesis Hmult : forall P k, w_on c P -> P <> pinf c -> bytes_ok k ->
  good (sm2_ScalarMult (px c P) (py c P) k) (fun r => r = (px c (be2z k ** P), py c (be2z k ** P))).
Hypothesis Hadd : forall P Q, w_on c P -> w_on c Q ->
  good (sm2_Add (px c P) (py c P) (px c Q) (py c Q))
    (fun r => (P <> Q -> r = (px c (w_add c P Q), py c (w_add c P Q))) /\ (P = Q -> r = (0, 0))).
Hypothesis Hon : forall x y, good (sm2_IsOnCurve x y) (fun r => r = true <-> w_on c (paff c x y)).

Local Notation pxb := (pxb c Hv Hp).
Local Notation pyb := (pyb c Hv Hp).
Local Notation toN := (toN c HN).
Local Notation ptx := (pt_bytes_x c Hv Hp).
Local Notation pty := (pt_bytes_y c Hv Hp).

Definition xb (P : pt c) : bytes := z2be 32 (px c P).
Definition yb (P : pt c) : bytes := z2be 32 (py c P).

(** The ciphertext for the nonce k. *)
Definition cipher_of (Q : pt c) (data ct : bytes) (k : Z) : Prop :=
  0 < k < n /\ snd (sm2_kdf (xb (k ** Q)) (yb (k ** Q)) (length data)) = true /\
  ct = [4] ++ point_bytes c (k ** G) ++ Sm3Sum (xb (k ** Q) ++ data ++ yb (k ** Q))
       ++ xor_bytes (fst (sm2_kdf (xb (k ** Q)) (yb (k ** Q)) (length data))) data.

Lemma encrypt_loop_good Q data rand fuel : w_on c Q -> Q <> pinf c -> forall i,
  good (sm2_encrypt_loop (px c Q) (py c Q) data rand fuel i)
    (fun o => forall ct, o = Some (Ok ct) -> exists k, cipher_of Q data ct k).
Proof.
  intros HQ HQ0. induction fuel as [|f IH]; intros i; cbn [sm2_encrypt_loop].
  - apply good_ret. discriminate.
  - destruct (rand i) as [blk|]; [|apply good_ret; discriminate].
    rewrite toN. pose proof (rfe' c Hn blk) as Hk.
    set (k := rand_field_element n blk) in *. clearbody k. cbv zeta.
    eapply good_bind; [apply Hbase, big_bytes_ok|]. intros P1 ->. cbn [fst snd].
    eapply good_bind; [apply Hmult; [exact HQ|exact HQ0|apply big_bytes_ok]|]. intros P2 ->. cbn [fst snd].
    rewrite be2z_big_bytes by (clear - Hk; lia).
    rewrite (pad32_big_bytes (px c (k ** G)) (pxb _)), (pad32_big_bytes (py c (k ** G)) (pyb _)),
      (pad32_big_bytes (px c (k ** Q)) (pxb _)), (pad32_big_bytes (py c (k ** Q)) (pyb _)).
    fold (xb (k ** Q)). fold (yb (k ** Q)).
    destruct (sm2_kdf (xb (k ** Q)) (yb (k ** Q)) (length data)) as [ck ok] eqn:Ek.
    destruct ok; [|apply IH].
    apply good_ret. intros ct Hct. exists k. unfold cipher_of. rewrite Ek. cbn [fst snd].
    split; [exact Hk|]. split; [reflexivity|].
    assert (E : ct = [4] ++ z2be 32 (px c (k ** G)) ++ z2be 32 (py c (k ** G)) ++
       Sm3Sum (xb (k ** Q) ++ data ++ yb (k ** Q)) ++ xor_bytes ck data) by congruence.
    rewrite E. unfold point_bytes. rewrite <- !app_assoc. reflexivity.
Qed.

Lemma encrypt_good rand fuel Q plain : w_on c Q -> Q <> pinf c ->
  good (sm2_encrypt rand fuel (point_bytes c Q) plain)
    (fun o => forall ct, o = Some (Ret (Ok ct)) -> plain <> [] /\ exists k, cipher_of Q plain ct k).
Proof.
  intros HQ HQ0. unfold sm2_encrypt. rewrite pt_bytes_len. cbn [Nat.eqb negb].
  destruct plain as [|b l]; [apply good_ret; discriminate|]. cbn [length Nat.eqb].
  rewrite ptx, pty.
  eapply good_bind; [apply encrypt_loop_good; assumption|].
  intros o Ho. apply good_ret. intros ct E. split; [discriminate|]. apply Ho.
  destruct o as [r|]; [|discriminate]. cbn in E. congruence.
Qed.

(** Decrypting a string 04 || P || h || body. *)
Lemma decrypt_good d P h body : 0 <= d -> w_on c P -> P <> pinf c -> length h = 32%nat ->
  good (sm2_std_decrypt d ([4] ++ point_bytes c P ++ h ++ body))
    (fun o => let S := d ** P in
      let '(ck, ok) := sm2_kdf (xb S) (yb S) (length body) in
      let m := xor_bytes ck body in
      o = if negb ok then Ret ([], Some ErrOther)
          else if list_eq_dec Z.eq_dec (Sm3Sum (xb S ++ m ++ yb S)) h then Ret (m, None)
          else Ret (m, Some ErrOther)).
Proof.
  intros Hd HP HP0 Hh. unfold sm2_std_decrypt. cbn [app].
  assert (L64 : length (point_bytes c P) = 64%nat) by apply pt_bytes_len.
  assert (L : length (point_bytes c P ++ h ++ body) = (96 + length body)%nat)
    by (rewrite !app_length, L64, Hh; lia).
  rewrite L. replace (96 + length body <? 64)%nat with false by (symmetry; apply Nat.ltb_ge; lia).
  replace (96 + length body <? 96)%nat with false by (symmetry; apply Nat.ltb_ge; lia).
  assert (E1 : point_bytes c P = firstn 32 (point_bytes c P) ++ skipn 32 (point_bytes c P))
    by (symmetry; apply firstn_skipn).
  assert (LA : length (firstn 32 (point_bytes c P)) = 32%nat) by (rewrite firstn_length, L64; reflexivity).
  assert (LB : length (skipn 32 (point_bytes c P)) = 32%nat) by (rewrite skipn_length, L64; reflexivity).
  assert (F3 : firstn 32 (skipn 64 (point_bytes c P ++ h ++ body)) = h)
    by (rewrite (skipn_l 64 _ _ L64); apply firstn_l, Hh).
  assert (F4 : skipn 96 (point_bytes c P ++ h ++ body) = body).
  { rewrite app_assoc. apply skipn_l. rewrite app_length, L64, Hh. reflexivity. }
  assert (F1 : firstn 32 (point_bytes c P ++ h ++ body) = firstn 32 (point_bytes c P)).
  { rewrite E1 at 1. rewrite <- app_assoc. apply firstn_l, LA. }
  assert (F2 : firstn 32 (skipn 32 (point_bytes c P ++ h ++ body)) = skipn 32 (point_bytes c P)).
  { rewrite E1 at 1. rewrite <- app_assoc, (skipn_l 32 _ _ LA). apply firstn_l, LB. }
  rewrite F1, F2, F3, F4, ptx, pty.
  eapply good_bind; [apply Hmult; [exact HP|exact HP0|apply big_bytes_ok]|]. intros P2 ->. cbn [fst snd].
  rewrite be2z_big_bytes by exact Hd. cbv zeta.
  rewrite (pad32_big_bytes (px c (d ** P)) (pxb _)), (pad32_big_bytes (py c (d ** P)) (pyb _)).
  fold (xb (d ** P)). fold (yb (d ** P)).
  replace (96 + length body - 96)%nat with (length body) by lia.
  destruct (sm2_kdf (xb (d ** P)) (yb (d ** P)) (length body)) as [ck ok].
  destruct ok; cbn [negb]; [|apply good_ret; reflexivity].
  destruct (list_eq_dec Z.eq_dec _ h); apply good_ret; reflexivity.
Qed.

Lemma round_trip d plain ct k : 0 < d < n -> cipher_of (d ** G) plain ct k ->
  good (sm2_std_decrypt d ct) (fun o => o = Ret (plain, None)).
Proof.
  intros Hd (Hk & Hok & ->).
  assert (HkG : k ** G <> pinf c).
  { intros E. apply (mulG_inf c Hv) in E. rewrite Z.mod_small in E; lia. }
  assert (EQ : d ** (k ** G) = k ** (d ** G)).
  { rewrite !mulG_mul by exact Hv. f_equal. ring. }
  set (S := k ** (d ** G)) in *.
  pose proof (decrypt_good d (k ** G) (Sm3Sum (xb S ++ plain ++ yb S))
     (xor_bytes (fst (sm2_kdf (xb S) (yb S) (length plain))) plain)) as D.
  eapply good_weaken; [apply D|].
  - lia.
  - apply mul_on, G_on; assumption.
  - exact HkG.
  - apply Sm3Sum_length.
  - clear D. intros o. rewrite EQ. fold S. cbv zeta.
    rewrite xor_bytes_length, kdf_length, Nat.min_id.
    destruct (sm2_kdf (xb S) (yb S) (length plain)) as [ck ok] eqn:Ek. cbn [fst snd] in *. subst ok. cbn [negb].
    assert (Lc : length ck = length plain).
    { pose proof (kdf_length (xb S) (yb S) (length plain)) as K. rewrite Ek in K. exact K. }
    rewrite xor_bytes_back by exact Lc. intros ->.
    destruct (list_eq_dec Z.eq_dec _ _) as [_|X]; [reflexivity|]. exfalso. apply X. reflexivity.
Qed.

Lemma decrypt_round prikey plain ct k : bytes_ok prikey -> length prikey = 32%nat ->
  0 < be2z prikey < n -> cipher_of (be2z prikey ** G) plain ct k ->
  good (sm2_decrypt prikey ct) (fun o => o = Ret (plain, None)).
Proof.
  intros Hk HL Hd Hc. unfold sm2_decrypt. rewrite HL, toN. cbn [Nat.eqb negb].
  assert (Hct : (length ct =? 0)%nat = false).
  { destruct Hc as (_ & _ & ->). reflexivity. }
  rewrite Hct. assert (Hle : (n <=? be2z prikey) = false) by (apply Z.leb_gt; lia). rewrite Hle.
  eapply good_bind; [apply Hbase, Hk|]. intros Q _. eapply round_trip; eassumption.
Qed.

(** ** Key agreement *)
Lemma on_point P : w_on c P -> P <> pinf c -> w_on c (paff c (px c P) (py c P)).
Proof. intros H H0. rewrite paff_pxy by exact H0. exact H. Qed.

Lemma ka_point_good prikey tmpPri tmpPub P R : w_on c P -> w_on c R -> R <> pinf c ->
  let t := (be2z prikey + be2z (ka_bar tmpPub) * be2z tmpPri) mod n in
  let xR := be2z (ka_bar (point_bytes c R)) ** R in
  xR <> P -> w_add c xR P <> pinf c ->
  good (ka_point prikey tmpPri tmpPub (point_bytes c P) (point_bytes c R))
    (fun r => r = (px c (t ** w_add c xR P), py c (t ** w_add c xR P))).
Proof.
  intros HP HR HR0 t xR Hne Hinf. unfold ka_point. cbv zeta. rewrite toN. fold t.
  rewrite !ptx, !pty.
  eapply good_bind; [apply Hmult; [exact HR|exact HR0|apply ka_bar_ok, pt_bytes_ok]|].
  intros P1 ->. cbn [fst snd]. fold xR.
  eapply good_bind; [apply Hadd; [apply mul_on; assumption|exact HP]|].
  intros P2 [HP2 _]. rewrite (HP2 Hne). cbn [fst snd].
  assert (Ht : 0 <= t < n) by (apply Z.mod_pos_bound; pose proof (size256_big _ Hn); lia).
  eapply good_weaken; [apply Hmult; [apply add_on; [assumption|apply mul_on; assumption|exact HP]|exact Hinf|apply big_bytes_ok]|].
  intros r ->. rewrite be2z_big_bytes by lia. reflexivity.
Qed.

Definition bar (R : pt c) : Z := be2z (ka_bar (point_bytes c R)).
(** One side's combined secret d + x̄ r, and the conditions under which the other
    side's computation of its multiple of G goes through the generic branch. *)
Definition ka_t (d r : Z) : Z := d + bar (r ** G) * r.
Definition ka_regular (d r : Z) : Prop :=
  (bar (r ** G) * r - d) mod n <> 0 /\ (d + bar (r ** G) * r) mod n <> 0.

Lemma regular_ne d r : ka_regular d r -> bar (r ** G) ** (r ** G) <> d ** G.
Proof.
  intros [H _] E. rewrite mulG_mul in E by exact Hv. apply H.
  apply (mulG_inf c Hv). unfold Z.sub. rewrite <- mulG_add, <- mulG_neg by exact Hv. rewrite E.
  rewrite mulG_neg, mulG_add by exact Hv. replace (d + - d) with 0 by ring. reflexivity.
Qed.
Lemma regular_sum d r : w_add c (bar (r ** G) ** (r ** G)) (d ** G) = ka_t d r ** G.
Proof. rewrite mulG_mul, mulG_add by exact Hv. f_equal. unfold ka_t. ring. Qed.
Lemma regular_inf d r : ka_regular d r -> w_add c (bar (r ** G) ** (r ** G)) (d ** G) <> pinf c.
Proof. intros [_ H] E. rewrite regular_sum in E. apply (mulG_inf c Hv) in E. apply H. exact E. Qed.

(** The shared point, seen from the side with secrets (d, r). *)
Lemma ka_side prikey tmpPri d r d' r' : be2z prikey = d -> be2z tmpPri = r ->
  r' ** G <> pinf c -> ka_regular d' r' ->
  good (ka_point prikey tmpPri (point_bytes c (r ** G)) (point_bytes c (d' ** G)) (point_bytes c (r' ** G)))
    (fun p => p = (px c ((ka_t d r * ka_t d' r') ** G), py c ((ka_t d r * ka_t d' r') ** G))).
Proof.
  intros Hd Hr Hr' Hreg.
  pose proof (regular_ne _ _ Hreg) as N1. pose proof (regular_inf _ _ Hreg) as N2.
  pose proof (ka_point_good prikey tmpPri (point_bytes c (r ** G)) (d' ** G) (r' ** G)) as K.
  cbv zeta in K. eapply good_weaken; [apply K|].
  - apply mul_on, G_on; assumption.
  - apply mul_on, G_on; assumption.
  - exact Hr'.
  - exact N1.
  - exact N2.
  - clear K. intros p. unfold bar in N1, N2. rewrite Hd, Hr.
    change (be2z (ka_bar (point_bytes c (r' ** G)))) with (bar (r' ** G)).
    rewrite regular_sum, mulG_mul by exact Hv.
    change (be2z (ka_bar (point_bytes c (r ** G)))) with (bar (r ** G)).
    assert (E : ((d + bar (r ** G) * r) mod n * ka_t d' r') ** G = (ka_t d r * ka_t d' r') ** G).
    { apply mulG_eq; [exact Hv|]. rewrite Zmult_mod_idemp_l. reflexivity. }
    rewrite E. intros ->. reflexivity.
Qed.

Lemma ka_ids_some idI idR P Q : bytes_ok idI -> bytes_ok idR ->
  0 < Z.of_nat (length idI) < 8192 -> 0 < Z.of_nat (length idR) < 8192 ->
  ka_ids idI idR (point_bytes c P) (point_bytes c Q) = Some (sm2_Z c P idI, sm2_Z c Q idR).
Proof.
  intros HI HR LI LR. unfold ka_ids. rewrite !pt_bytes_len, !ptx, !pty. cbn [Nat.eqb negb].
  rewrite !(ZA_spec c Hv Hp Hpar) by assumption.
  replace (length idI =? 0)%nat with false by (symmetry; apply Nat.eqb_neq; lia).
  replace (length idR =? 0)%nat with false by (symmetry; apply Nat.eqb_neq; lia).
  replace (8192 <=? Z.of_nat (length idI)) with false by (symmetry; apply Z.leb_gt; lia).
  replace (8192 <=? Z.of_nat (length idR)) with false by (symmetry; apply Z.leb_gt; lia).
  reflexivity.
Qed.

(** The responder's view: everything it returns, in terms of the secrets. *)
Definition shared (d r d' r' : Z) : pt c := (ka_t d r * ka_t d' r') ** G.

Lemma responder_good random idI idR prikey dI rI given keylen :
  bytes_ok idI -> bytes_ok idR -> 0 < Z.of_nat (length idI) < 8192 -> 0 < Z.of_nat (length idR) < 8192 ->
  bytes_ok prikey -> bytes_ok random -> (match given with Some g => bytes_ok g | None => True end) ->
  rI ** G <> pinf c -> ka_regular dI rI ->
  let dR := be2z prikey in
  good (sm2_ka_responder_step1 random idI idR prikey (point_bytes c (dR ** G)) (point_bytes c (dI ** G))
          (point_bytes c (rI ** G)) given keylen)
   (fun o => forall key tmpPub si so, o = Ret (key, tmpPub, si, so, true) ->
      exists rR, 0 < rR < n /\ (match given with Some g => rR = be2z g | None => True end) /\
        tmpPub = point_bytes c (rR ** G) /\
        let S := shared dI rI dR rR in
        let zi := sm2_Z c (dI ** G) idI in
        let zr := sm2_Z c (dR ** G) idR in
        key = sm2_ka_kdf (px c S) (py c S) zi zr ((keylen * 8) mod 2 ^ 16) /\
        si = sm2_ka_check 3 zi zr (point_bytes c (rI ** G)) tmpPub (px c S) (py c S) /\
        so = sm2_ka_check 2 zi zr (point_bytes c (rI ** G)) tmpPub (px c S) (py c S)).
Proof.
  intros HI HR LI LR Hpk Hrnd Hgiv HrI Hreg dR. unfold sm2_ka_responder_step1.
  rewrite !pt_bytes_len, ptx, pty. cbn [Nat.eqb negb].
  eapply good_bind; [apply Hon|]. intros on Hon'.
  assert (on = true) by (apply Hon'; apply on_point; [apply mul_on, G_on; assumption|exact HrI]). subst on.
  cbn [negb]. clear Hon'.
  set (tp := match given with None => _ | Some g => _ end).
  assert (Htp : forall p, tp = Some p -> bytes_ok p /\ match given with Some g => p = g | None => True end).
  { intros p. unfold tp. destruct given as [g|].
    - destruct (length g =? 32)%nat; [|discriminate]. intros E. cbn [negb] in E. assert (p = g) by congruence. subst. auto.
    - intros E. assert (E' : p = pad32 (big_bytes (be2z random mod sm2_N))) by congruence.
      split; [|exact I]. rewrite E', toN. apply pad32_ok. apply (nb c Hn). apply Z.mod_pos_bound.
      pose proof (size256_big _ Hn). lia. }
  clearbody tp. destruct tp as [tmpPri|]; [|apply good_ret; intros ? ? ? ? E; discriminate].
  destruct (Htp tmpPri eq_refl) as [Hto Hg]. clear Htp. rewrite toN. cbv zeta.
  pose proof (be2z_bound tmpPri Hto) as [Hr0 _].
  destruct ((be2z tmpPri =? 0) || (n <=? be2z tmpPri)) eqn:Er; [apply good_ret; intros ? ? ? ? E; discriminate|].
  apply orb_false_iff in Er. destruct Er as [Er1 Er2]. apply Z.eqb_neq in Er1. apply Z.leb_gt in Er2.
  eapply good_bind; [apply Hbase, Hto|]. intros R ->. cbn [fst snd].
  rewrite (marshal_pt c Hv Hp).
  destruct (length prikey =? 32)%nat; [|apply good_ret; intros ? ? ? ? E; discriminate]. cbn [negb Nat.ltb Nat.leb].
  set (rR := be2z tmpPri) in *.
  eapply good_bind; [apply (ka_side prikey tmpPri dR rR dI rI); [reflexivity|reflexivity|exact HrI|exact Hreg]|].
  intros P ->. cbn [fst snd]. rewrite ka_ids_some by assumption. apply good_ret.
  intros key tmpPub si so E. exists rR. split; [clear - Hr0 Er1 Er2; lia|]. split.
  { destruct given as [g|]; [subst; reflexivity|exact I]. }
  unfold shared. rewrite (Z.mul_comm (ka_t dI rI)).
  assert (E1 : tmpPub = point_bytes c (rR ** G)) by congruence. subst tmpPub. split; [reflexivity|].
  repeat split; congruence.
Qed.

Lemma initiator_good idI idR prikey tmpPri dR rR keylen sin :
  bytes_ok idI -> bytes_ok idR -> 0 < Z.of_nat (length idI) < 8192 -> 0 < Z.of_nat (length idR) < 8192 ->
  length prikey = 32%nat -> length tmpPri = 32%nat ->
  rR ** G <> pinf c -> ka_regular dR rR ->
  let dI := be2z prikey in
  let rI := be2z tmpPri in
  let S := shared dI rI dR rR in
  let zi := sm2_Z c (dI ** G) idI in
  let zr := sm2_Z c (dR ** G) idR in
  let RI := point_bytes c (rI ** G) in
  let RR := point_bytes c (rR ** G) in
  sin = sm2_ka_check 2 zi zr RI RR (px c S) (py c S) ->
  good (sm2_ka_initiator_step2 idI idR prikey (point_bytes c (dI ** G)) (point_bytes c (dR ** G)) tmpPri RI RR sin keylen)
   (fun o => o = Ret (sm2_ka_kdf (px c S) (py c S) zi zr ((keylen * 8) mod 2 ^ 16),
                      sm2_ka_check 3 zi zr RI RR (px c S) (py c S), true)).
Proof.
  intros HI HR LI LR Hpk Htp HrR Hreg dI rI S zi zr RI RR Hsin. unfold sm2_ka_initiator_step2.
  unfold RR at 1 2 3, RI at 1. rewrite !pt_bytes_len, ptx, pty. cbn [Nat.eqb negb].
  eapply good_bind; [apply Hon|]. intros on Hon'.
  assert (on = true) by (apply Hon'; apply on_point; [apply mul_on, G_on; assumption|exact HrR]). subst on.
  cbn [negb]. clear Hon'. rewrite Hpk, Htp. cbn [Nat.eqb negb Nat.ltb Nat.leb].
  eapply good_bind; [unfold RI, RR; apply (ka_side prikey tmpPri dI rI dR rR); [reflexivity|reflexivity|exact HrR|exact Hreg]|].
  intros P ->. cbn [fst snd]. rewrite ka_ids_some by assumption.
  change ((ka_t dI rI * ka_t dR rR) ** G) with S. fold zi zr. cbv zeta.
  destruct (list_eq_dec Z.eq_dec _ sin) as [_|X]; [apply good_ret; reflexivity|]. exfalso. apply X. symmetry. exact Hsin.
Qed.

Lemma step1_good random : bytes_ok random ->
  good (sm2_ka_initiator_step1 random)
    (fun o => length (fst o) = 32%nat /\ bytes_ok (fst o) /\ 0 <= be2z (fst o) < n /\
      (be2z (fst o) <> 0 -> snd o = point_bytes c (be2z (fst o) ** G))).
Proof.
  intros H. unfold sm2_ka_initiator_step1. cbv zeta. rewrite toN.
  assert (B : 0 <= be2z random mod n < n) by (apply Z.mod_pos_bound; pose proof (size256_big _ Hn); lia).
  rewrite pad32_big_bytes by (apply (nb c Hn); exact B).
  set (z := be2z random mod n) in *. clearbody z.
  assert (Ez : be2z (z2be 32 z) = z) by (rewrite be2z_z2be, pow256_32; apply Z.mod_small, (nb c Hn), B).
  eapply good_bind; [apply Hbase, z2be_ok|]. intros Q ->. apply good_ret. cbn [fst snd].
  rewrite Ez. split; [apply z2be_length|]. split; [apply z2be_ok|]. split; [exact B|].
  intros H0. apply Z.eqb_neq in H0. rewrite H0. apply (marshal_pt c Hv Hp).
Qed.
End Gen.
