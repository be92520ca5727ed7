(** SM2 signatures: what signing and verification do when no field
    multiplication underflows. *)
From Coq Require Import ZArith List Lia Znumtheory Bool.
From Verif Require Import Base Words EC Curves Group ModelECDSA SpecECDSA ProofECDSA
  SpecSM3 ModelSM3 ProofSM3 SpecSM2 ModelSM2F ModelSM2P ProofSM2P ProofSM2L ModelSM2S.
Import ListNotations.
Open Scope Z_scope.

Lemma sm3_of_spec l : Forall bytes_ok l -> sm3_of l = SM3Spec.hash (concat l).
Proof.
  intros H. unfold sm3_of. rewrite sm3_stream; [now rewrite app_nil_r|exact H|constructor].
Qed.
Lemma sm3_of_length l : length (sm3_of l) = 32%nat.
Proof.
  unfold sm3_of, sm3_sum. cbv zeta. cbn [snd]. destruct (sm3_update _ _ _) as [a b c d e f g h].
  cbn [regs_list map concat]. rewrite !app_length, !z2be_length. reflexivity.
Qed.
Lemma sm3_of_ok l : bytes_ok (sm3_of l).
Proof.
  unfold sm3_of, sm3_sum. cbv zeta. cbn [snd]. destruct (sm3_update _ _ _) as [a b c d e f g h].
  cbn [regs_list map concat]. repeat (apply bytes_ok_app; [apply z2be_ok|]). constructor.
Qed.

Lemma pad32_ok z : 0 <= z < 2 ^ 256 -> bytes_ok (pad32 (big_bytes z)).
Proof. intros H. rewrite pad32_big_bytes by exact H. apply z2be_ok. Qed.

(** The two bytes of the length of the identity. *)
Lemma entla n : Z.of_nat n < 8192 ->
  [Z.land (Z.shiftr (Z.of_nat (8 * n) mod 2 ^ 16) 8) 255] ++ [Z.land (Z.of_nat (8 * n) mod 2 ^ 16) 255]
  = z2be 2 (8 * Z.of_nat n).
Proof.
  intros H. rewrite Nat2Z.inj_mul. change (Z.of_nat 8) with 8.
  rewrite Z.mod_small by (change (2 ^ 16) with 65536; lia).
  set (m := 8 * Z.of_nat n). change 255 with (Z.ones 8). rewrite !Z.land_ones, Z.shiftr_div_pow2 by lia.
  reflexivity.
Qed.

Lemma firstn_z2be_app n x y : firstn n (z2be n x ++ y) = z2be n x.
Proof.
  pose proof (z2be_length n x) as L. rewrite firstn_app, L, Nat.sub_diag. simpl.
  rewrite app_nil_r. rewrite <- L at 1. apply firstn_all.
Qed.
Lemma skipn_z2be_app n x y : skipn n (z2be n x ++ y) = y.
Proof.
  pose proof (z2be_length n x) as L. rewrite skipn_app, L, Nat.sub_diag. simpl.
  rewrite <- L at 1. rewrite skipn_all. reflexivity.
Qed.

Definition size256 (z : Z) : Prop := 2 ^ 255 < z < 2 ^ 256.
Lemma size256_lt z x : size256 z -> 0 <= x < z -> 0 <= x < 2 ^ 256.
Proof. unfold size256. lia. Qed.
Lemma size256_big z : size256 z -> 2 < z.
Proof. unfold size256. lia. Qed.

(** Hidden from the arithmetic tactics. *)
Definition order_is (c : wcurve) : Prop := w_n c = sm2_N.
Definition params_are (c : wcurve) : Prop :=
  sm2_to_big sm2_fa = w_a c mod w_p c /\ sm2_b = w_b c /\ sm2_Gx = w_gx c /\ sm2_Gy = w_gy c /\
  forall z, In z [w_a c mod w_p c; w_b c; w_gx c; w_gy c] -> big_bytes z = z2be 32 z.
Lemma byte_land x : byte_ok (Z.land x 255).
Proof.
  change 255 with (Z.ones 8). rewrite Z.land_ones by lia.
  unfold byte_ok. change 256 with (2 ^ 8). apply Z.mod_pos_bound. reflexivity.
Qed.

Lemma Forall9 {A} (P : A -> Prop) a1 a2 a3 a4 a5 a6 a7 a8 a9 :
  P a1 -> P a2 -> P a3 -> P a4 -> P a5 -> P a6 -> P a7 -> P a8 -> P a9 ->
  Forall P [a1; a2; a3; a4; a5; a6; a7; a8; a9].
Proof. intros. repeat (apply Forall_cons; [assumption|]). apply Forall_nil. Qed.

Section Gen.
Variable c : wcurve.
Hypothesis Hv : w_valid c.
Hypothesis Hb : w_b c mod w_p c <> 0.
Hypothesis HN : order_is c.
Hypothesis Hp : size256 (w_p c).
Hypothesis Hn : size256 (w_n c).
Hypothesis Hpar : params_are c.
Local Notation n := (w_n c).
Local Notation G := (w_G c).
Local Notation "k ** P" := (w_mul c k P) (at level 39).
Hypothesis Hbase : forall k, bytes_ok k -> good (sm2_ScalarBaseMult k)
  (fun r => r = (px c (w_mul c (be2z k) (w_G c)), py c (w_mul c (be2z k) (w_G c)))).
Hypothesis Hmult : forall P k, w_on c P -> P <> pinf c -> bytes_ok k ->
  good (sm2_ScalarMult (px c P) (py c P) k) (fun r => r = (px c (w_mul c (be2z k) P), py c (w_mul c (be2z k) P))).
Hypothesis Hadd : forall P Q, w_on c P -> w_on c Q ->
  good (sm2_Add (px c P) (py c P) (px c Q) (py c Q))
    (fun r => (P <> Q -> r = (px c (w_add c P Q), py c (w_add c P Q))) /\ (P = Q -> r = (0, 0))).


Lemma pxb P : 0 <= px c P < 2 ^ 256.
Proof. exact (size256_lt _ _ Hp (px_bound c Hv P)). Qed.
Lemma pyb P : 0 <= py c P < 2 ^ 256.
Proof. exact (size256_lt _ _ Hp (py_bound c Hv P)). Qed.
Lemma n2 : 2 < n.
Proof. exact (size256_big _ Hn). Qed.
Lemma nb x : 0 <= x < n -> 0 <= x < 2 ^ 256.
Proof. exact (size256_lt _ x Hn). Qed.

Lemma pt_bytes_x P : be2z (firstn 32 (point_bytes c P)) = px c P.
Proof.
  unfold point_bytes. rewrite firstn_z2be_app, be2z_z2be, pow256_32, Z.mod_small; [reflexivity|apply pxb].
Qed.
Lemma pt_bytes_y P : be2z (skipn 32 (point_bytes c P)) = py c P.
Proof.
  unfold point_bytes. rewrite skipn_z2be_app, be2z_z2be, pow256_32, Z.mod_small; [reflexivity|apply pyb].
Qed.
Lemma pt_bytes_len P : length (point_bytes c P) = 64%nat.
Proof. unfold point_bytes. rewrite app_length, !z2be_length. reflexivity. Qed.
Lemma pt_bytes_ok P : bytes_ok (point_bytes c P).
Proof. unfold point_bytes. apply bytes_ok_app; apply z2be_ok. Qed.
Lemma marshal_pt P : marshal_xy (px c P) (py c P) = point_bytes c P.
Proof.
  unfold marshal_xy, point_bytes. rewrite !pad32_big_bytes; [reflexivity|apply pyb|apply pxb].
Qed.

Lemma toN : sm2_N = n.
Proof. symmetry. exact HN. Qed.

Lemma ZA_spec Q id : bytes_ok id ->
  sm2_ZA (px c Q) (py c Q) id = if (8192 <=? Z.of_nat (length id)) then None else Some (sm2_Z c Q id).
Proof.
  intros Hid. unfold sm2_ZA. destruct (8192 <=? Z.of_nat (length id)) eqn:E; [reflexivity|].
  apply Z.leb_gt in E. cbv zeta. rewrite sm3_of_spec.
  - cbn [concat]. f_equal. unfold sm2_Z. f_equal. rewrite <- entla by exact E.
    destruct Hpar as (HA & HB & HGx & HGy & Hlen).
    rewrite HA, HB, HGx, HGy. rewrite !Hlen by (simpl; auto).
    rewrite !pad32_big_bytes by (apply pxb || apply pyb). rewrite app_nil_r.
    rewrite <- !app_assoc. reflexivity.
  - apply Forall9;
      match goal with
      | |- bytes_ok id => exact Hid
      | |- bytes_ok (big_bytes ?z) => exact (big_bytes_ok z)
      | |- bytes_ok (pad32 (big_bytes (px _ _))) => exact (pad32_ok _ (pxb _))
      | |- bytes_ok (pad32 (big_bytes (py _ _))) => exact (pad32_ok _ (pyb _))
      | |- bytes_ok [Z.land ?x 255] => exact (Forall_cons _ (byte_land x) (Forall_nil _))
      end.
Qed.

Lemma e_spec Q id m : id_ok id -> bytes_ok m -> length m = 32%nat ->
  sm2_e (px c Q) (py c Q) m id =
    match id with
    | Some i => if (8192 <=? Z.of_nat (length i)) then Err ErrOther else Ok (sm2_number c Q id m)
    | None => Ok (sm2_number c Q id m)
    end.
Proof.
  intros Hid Hm Hl. unfold sm2_e. destruct id as [i|].
  - rewrite ZA_spec by exact Hid. destruct (8192 <=? Z.of_nat (length i)); [reflexivity|].
    unfold sm2_msgHash, sm2_number. rewrite sm3_of_spec.
    + cbn [concat]. rewrite app_nil_r. reflexivity.
    + apply Forall_cons; [apply hash_ok|]. apply Forall_cons; [exact Hm|apply Forall_nil].
  - rewrite Hl. reflexivity.
Qed.

Lemma bb_ok z : bytes_ok (big_bytes z).
Proof. apply big_bytes_ok. Qed.

(** Verification decides the standard's equation, unless the two points it adds
    are equal. *)
Lemma verify_good Q id m sig : w_on c Q -> Q <> pinf c -> id_ok id ->
  bytes_ok m -> length m = 32%nat -> bytes_ok sig -> length sig = 64%nat ->
  let r := be2z (firstn 32 sig) in
  let s := be2z (skipn 32 sig) in
  s ** G <> ((r + s) mod n) ** Q ->
  good (sm2_verify (point_bytes c Q) id m sig)
    (fun b => b = true <->
      (match id with Some i => Z.of_nat (length i) < 8192 | None => True end /\
       sm2_valid c Q (sm2_number c Q id m) r s)).
Proof.
  intros HQ HQ0 Hid Hm Hml Hs Hsl r s Hne. unfold sm2_verify.
  rewrite pt_bytes_len, Hml, Hsl. cbn [Nat.eqb negb]. rewrite pt_bytes_x, pt_bytes_y.
  fold r s. unfold sm2_std_verify. rewrite e_spec by assumption.
  assert (Hr0 : 0 <= r) by (apply be2z_bound; now apply bytes_ok_firstn).
  assert (Hs0 : 0 <= s) by (apply be2z_bound; now apply bytes_ok_skipn).
  clearbody r s.
  assert (Main : good
    (if (r <=? 0) || (s <=? 0) then ret false
      else if (sm2_N <=? r) || (sm2_N <=? s) then ret false
      else
        let t := (r + s) mod sm2_N in
        if t =? 0 then ret false
        else
          let* P1 := sm2_ScalarBaseMult (big_bytes s) in
          let* P2 := sm2_ScalarMult (px c Q) (py c Q) (big_bytes t) in
          let* P := sm2_Add (fst P1) (snd P1) (fst P2) (snd P2) in
          ret ((fst P + sm2_number c Q id m) mod sm2_N =? r))
    (fun b => b = true <-> sm2_valid c Q (sm2_number c Q id m) r s)).
  { rewrite toN. set (e := sm2_number c Q id m). clearbody e.
    destruct ((r <=? 0) || (s <=? 0)) eqn:E1.
    { intros _. cbn. split; [discriminate|]. intros [? [? _]]. apply orb_true_iff in E1.
      destruct E1 as [E1|E1]; apply Z.leb_le in E1; lia. }
    destruct ((n <=? r) || (n <=? s)) eqn:E2.
    { intros _. cbn. split; [discriminate|]. intros [? [? _]]. apply orb_true_iff in E2.
      destruct E2 as [E2|E2]; apply Z.leb_le in E2; lia. }
    apply orb_false_iff in E1, E2. destruct E1 as [E1 E1'], E2 as [E2 E2'].
    apply Z.leb_gt in E1, E1', E2, E2'. cbv zeta.
    set (t := (r + s) mod n) in *.
    assert (Ht : 0 <= t < n) by (apply Z.mod_pos_bound; lia).
    destruct (t =? 0) eqn:E3.
    { apply Z.eqb_eq in E3. intros _. cbn. split; [discriminate|]. intros (_ & _ & X & _).
      fold t in X. congruence. }
    apply Z.eqb_neq in E3.
    eapply good_bind; [apply Hbase, bb_ok|]. intros P1 ->. cbn [fst snd].
    eapply good_bind; [apply Hmult; [exact HQ|exact HQ0|apply bb_ok]|]. intros P2 ->. cbn [fst snd].
    rewrite !be2z_big_bytes by lia.
    eapply good_bind; [apply Hadd; apply mul_on; auto using G_on|].
    intros P [HP _]. rewrite (HP Hne). apply good_ret. cbn [fst].
    rewrite Z.eqb_eq. unfold sm2_valid. fold t. split.
    - intros X. split; [clear - E1 E2; lia|]. split; [clear - E1' E2'; lia|]. split; [exact E3|exact X].
    - intros (_ & _ & _ & X). exact X. }
  destruct id as [i|].
  - destruct (8192 <=? Z.of_nat (length i)) eqn:El.
    + intros _. apply Z.leb_le in El. cbn. split; [discriminate|]. intros [X _]. exfalso. lia.
    + apply Z.leb_gt in El. eapply good_weaken; [exact Main|]. intros b ->. cbn. tauto.
  - eapply good_weaken; [exact Main|]. intros b ->. cbn. tauto.
Qed.

(** What signing returns. *)
Definition sm2_sig_of (d e r s k : Z) : Prop :=
  0 < k < n /\ 0 <= r < n /\ 0 < s < n /\
  r = (px c (k ** G) + e) mod n /\ (s * (d + 1)) mod n = (k - d * r) mod n /\
  (r <> 0 \/ r + k = n).

Lemma rfe' b : 0 < rand_field_element n b < n.
Proof using Hn. clear - Hn. unfold rand_field_element. pose proof (Z.mod_pos_bound (be2z b) (n - 1)). pose proof (size256_big _ Hn). lia. Qed.

Lemma sign_loop_good d e draws fuel : forall i,
  good (sm2_sign_loop d e draws fuel i)
    (fun o => forall r s v, o = Some (Ret (r, s, v)) ->
      exists k, sm2_sig_of d e r s k /\ v = py c (k ** G) mod 2).
Proof.
  pose proof n2 as Hn2. induction fuel as [|f IH]; intros i; cbn [sm2_sign_loop].
  - apply good_ret. discriminate.
  - cbv zeta. rewrite toN. pose proof (rfe' (draws i)) as Hk.
    set (k := rand_field_element n (draws i)) in *. clearbody k.
    eapply good_bind; [apply Hbase, bb_ok|]. intros P ->. cbn [fst snd].
    rewrite be2z_big_bytes by lia.
    set (r := (px c (k ** G) + e) mod n).
    assert (Hr : 0 <= r < n) by (apply Z.mod_pos_bound; lia).
    destruct (negb (r =? 0) || (r + k =? n)) eqn:Ec; [|apply IH].
    destruct (mod_inverse (d + 1) n) as [inv|] eqn:Ei; [|apply good_ret; discriminate].
    destruct (negb (((k - d * r) * inv) mod n =? 0)) eqn:Es; [|apply IH].
    apply good_ret. intros r' s' v' H.
    assert (H1 : r' = r) by congruence. assert (H2 : s' = ((k - d * r) * inv) mod n) by congruence.
    assert (H3 : v' = if py c (k ** G) mod 2 =? 1 then 1 else 0) by congruence.
    clear H. subst v'. exists k. split.
    + subst r'. apply negb_true_iff, Z.eqb_neq in Es. rewrite <- H2 in Es.
      assert (Hs : 0 <= s' < n) by (subst s'; apply Z.mod_pos_bound; lia).
      apply mod_inverse_some in Ei; [|lia]. destruct Ei as [_ Ei].
      split; [exact Hk|]. split; [exact Hr|].
      split; [clear - Es Hs; lia|]. split; [reflexivity|]. split.
      * rewrite H2. rewrite Zmult_mod_idemp_l.
        replace ((k - d * r) * inv * (d + 1)) with ((k - d * r) * ((d + 1) * inv)) by ring.
        rewrite <- Zmult_mod_idemp_r, Ei. f_equal. ring.
      * apply orb_true_iff in Ec. destruct Ec as [Ec|Ec].
        -- left. apply negb_true_iff, Z.eqb_neq in Ec. exact Ec.
        -- right. apply Z.eqb_eq in Ec. exact Ec.
    + pose proof (Z.mod_pos_bound (py c (k ** G)) 2 ltac:(lia)).
      destruct (py c (k ** G) mod 2 =? 1) eqn:Ep; [apply Z.eqb_eq in Ep|apply Z.eqb_neq in Ep]; lia.
Qed.

(** The algebra of the scheme: k = s + (r+s) d, so s G + t Q = k G. *)
Lemma sig_point d e r s k : sm2_sig_of d e r s k ->
  w_add c (s ** G) (((r + s) mod n) ** (d ** G)) = k ** G.
Proof.
  intros (Hk & Hr & Hs & Er & Es & _).
  rewrite mulG_mul, mulG_add by exact Hv. apply mulG_eq; [exact Hv|].
  replace (s + (r + s) mod n * d) with ((r + s) mod n * d + s) by ring.
  rewrite <- Zplus_mod_idemp_l, Zmult_mod_idemp_l, Zplus_mod_idemp_l.
  replace ((r + s) * d + s) with (s * (d + 1) + d * r) by ring.
  rewrite <- Zplus_mod_idemp_l, Es, Zplus_mod_idemp_l. f_equal. ring.
Qed.

Lemma sig_valid d e r s k : sm2_sig_of d e r s k -> (r + s) mod n <> 0 -> r <> 0 ->
  sm2_valid c (d ** G) e r s.
Proof.
  intros H Ht Hr0. pose proof (sig_point _ _ _ _ _ H) as HP.
  destruct H as (Hk & Hr & Hs & Er & Es & _).
  unfold sm2_valid. cbv zeta. rewrite HP. split; [clear - Hr Hr0; lia|]. split; [exact Hs|]. split; [exact Ht|].
  symmetry. exact Er.
Qed.

Lemma sign_good drbg ent fuel prikey id m sig v :
  bytes_ok prikey -> id_ok id -> bytes_ok m ->
  good (sm2_sign drbg ent fuel prikey id m)
    (fun o => o = Some (Ret (Ok (sig, v))) ->
       length prikey = 32%nat /\ 0 < be2z prikey < n /\ length m = 32%nat /\
       (match id with Some i => Z.of_nat (length i) < 8192 | None => True end) /\
       exists r s k, sig = z2be 32 r ++ z2be 32 s /\
         sm2_sig_of (be2z prikey) (sm2_number c (be2z prikey ** G) id m) r s k /\
         v = py c (k ** G) mod 2).
Proof.
  intros Hk Hid Hm. unfold sm2_sign.
  destruct (length prikey =? 32)%nat eqn:E1; [apply Nat.eqb_eq in E1|apply good_ret; discriminate].
  destruct (length m =? 32)%nat eqn:E2; [apply Nat.eqb_eq in E2|apply good_ret; discriminate].
  cbn [negb]. rewrite toN. pose proof (be2z_bound prikey Hk) as [Hd0 _].
  destruct (be2z prikey =? 0) eqn:E3; [apply good_ret; discriminate|apply Z.eqb_neq in E3].
  destruct (n <=? be2z prikey) eqn:E4; [apply good_ret; discriminate|apply Z.leb_gt in E4].
  eapply good_bind; [apply Hbase, Hk|]. intros Q ->. cbn [fst snd].
  rewrite e_spec by assumption.
  assert (Main : forall e, e = sm2_number c (be2z prikey ** G) id m ->
    (match id with Some i => Z.of_nat (length i) < 8192 | None => True end) ->
    good match ent with
        | None => ret (Some (Ret (Err ErrOther)))
        | Some ent =>
            let* o := sm2_sign_loop (be2z prikey) e (drbg (big_bytes (be2z prikey) ++ ent ++ m)) fuel 0 in
            ret match o with
                | None => None
                | Some Panic => Some Panic
                | Some (Ret (r, s, v)) => Some (Ret (Ok (pad32 (big_bytes r) ++ pad32 (big_bytes s), v)))
                end
        end
    (fun o => o = Some (Ret (Ok (sig, v))) ->
       length prikey = 32%nat /\ 0 < be2z prikey < n /\ length m = 32%nat /\
       (match id with Some i => Z.of_nat (length i) < 8192 | None => True end) /\
       exists r s k, sig = z2be 32 r ++ z2be 32 s /\
         sm2_sig_of (be2z prikey) (sm2_number c (be2z prikey ** G) id m) r s k /\
         v = py c (k ** G) mod 2)).
  { intros e -> Hi8. destruct ent as [ent|]; [|apply good_ret; discriminate].
    eapply good_bind; [apply sign_loop_good|]. intros o Ho. apply good_ret. intros Heq.
    destruct o as [[[[r s] v']|]|]; [|discriminate|discriminate].
    destruct (Ho r s v' eq_refl) as (k & Hsig & Hv').
    assert (Esig : sig = pad32 (big_bytes r) ++ pad32 (big_bytes s)) by congruence.
    assert (Ev : v = v') by congruence. clear Heq.
    split; [exact E1|]. split; [lia|]. split; [exact E2|]. split; [exact Hi8|].
    exists r, s, k. rewrite Esig, Ev. split; [|split; [exact Hsig|exact Hv']].
    destruct Hsig as (_ & Hr & Hs & _). rewrite !pad32_big_bytes by (apply nb; lia). reflexivity. }
  destruct id as [i|].
  - destruct (8192 <=? Z.of_nat (length i)) eqn:El; [apply good_ret; discriminate|].
    apply Z.leb_gt in El. apply Main; [reflexivity|exact El].
  - apply Main; [reflexivity|exact I].
Qed.
End Gen.
