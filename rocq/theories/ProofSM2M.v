(** SM2 field: exactness of addition, subtraction and (when the reduction does not underflow)
    multiplication and squaring, for all operands in range. *)
From Coq Require Import ZArith List Lia Bool.
From Verif Require Import Base ModelSM2F ProofSM2R ProofSM2F.
Import ListNotations.
Open Scope Z_scope.

Lemma Forall2_length {A B} (R : A -> B -> Prop) l l' : Forall2 R l l' -> length l = length l'.
Proof. induction 1; cbn; congruence. Qed.

(** ** Operands in range: even limbs below 2^30, odd limbs below 2^29 *)
Definition fe_ok (a : fe) : Prop :=
  Forall2 (fun b x => 0 <= x < b) [2^30; 2^29; 2^30; 2^29; 2^30; 2^29; 2^30; 2^29; 2^30] a.
Definition fe_tight (a : fe) : Prop :=
  Forall2 (fun b x => 0 <= x < b) [2^29; 2^28; 2^29; 2^28; 2^29; 2^28; 2^29; 2^28; 2^29] a.
Lemma fe_len a : fe_ok a -> length a = 9%nat.
Proof. intros H. apply Forall2_length in H. symmetry. exact H. Qed.
Ltac inv_f2 H :=
  lazymatch type of H with
  | Forall2 _ (_ :: _) ?a =>
      let x := fresh "x" in let a' := fresh "l" in let K := fresh "K" in let H' := fresh "H" in
      inversion H as [|? x ? a' K H']; clear H; subst; inv_f2 H'
  | Forall2 _ [] ?a => inversion H; clear H; subst
  end.
Ltac fe_split H := unfold fe_ok, fe_tight in H; inv_f2 H.

Lemma fe_tight_ok a : fe_tight a -> fe_ok a.
Proof.
  intros H. fe_split H. repeat constructor; lia.
Qed.

Lemma carry_row k : 0 <= k <= 7 ->
  exists d0 d2 d3 d7, nth (Z.to_nat k) sm2_carry [] = [d0; 0; d2; d3; 0; 0; 0; d7; 0] /\
    0 <= d0 <= 14 /\ 0 <= d2 <= 0x1FFFFF00 /\ 0 <= d3 <= 0x37FF /\ 0 <= d7 <= 0xE000000 /\
    sm2_horner true [d0; 0; d2; d3; 0; 0; 0; d7; 0] = k * 2 ^ 257 - 2 * k * sm2_P.
Proof.
  intros H. assert (C : k = 0 \/ k = 1 \/ k = 2 \/ k = 3 \/ k = 4 \/ k = 5 \/ k = 6 \/ k = 7) by lia.
  repeat destruct C as [C|C]; subst k; do 4 eexists; (split; [reflexivity|]); repeat split; try discriminate.
Qed.
Lemma reduce_carry_spec a k : fe_tight a -> 0 <= k <= 7 ->
  fe_ok (sm2_reduce_carry a k) /\
  sm2_horner true (sm2_reduce_carry a k) = sm2_horner true a + k * 2 ^ 257 - 2 * k * sm2_P.
Proof.
  intros Ha Hk. destruct (carry_row k Hk) as (d0 & d2 & d3 & d7 & E & B0 & B2 & B3 & B7 & V).
  fe_split Ha. unfold sm2_reduce_carry. rewrite E. cbv zeta. cbn [nth].
  rewrite !u32_small by lia. split.
  - repeat constructor; lia.
  - set (P := sm2_P) in *. clearbody P. cbn [sm2_horner negb] in V |- *. lia.
Qed.

(** One digit of a carry chain. *)
Lemma digit29 c : 0 <= c < 2 ^ 32 -> c = 2 ^ 29 * shr c 29 + m29 c /\ 0 <= m29 c < 2 ^ 29 /\ 0 <= shr c 29 <= 7.
Proof.
  intros H. (rewrite ?m29_eq; rewrite ?shr_eq by lia). pose proof (Z.div_mod c (2 ^ 29) ltac:(lia)). pose proof (Z.mod_pos_bound c (2 ^ 29) eq_refl). lia.
Qed.
Lemma digit28 c : 0 <= c < 2 ^ 32 -> c = 2 ^ 28 * shr c 28 + m28 c /\ 0 <= m28 c < 2 ^ 28 /\ 0 <= shr c 28 <= 15.
Proof.
  intros H. (rewrite ?m28_eq; rewrite ?shr_eq by lia). pose proof (Z.div_mod c (2 ^ 28) ltac:(lia)). pose proof (Z.mod_pos_bound c (2 ^ 28) eq_refl). lia.
Qed.

Lemma add_chain a : forall ev b carry, length a = length b -> 0 <= carry <= 15 ->
  Forall (fun x => 0 <= x < 2 ^ 30) a -> Forall (fun x => 0 <= x < 2 ^ 30) b ->
  exists r k, sm2_add_chain ev a b carry = (r, k) /\ 0 <= k <= 15 /\
    sm2_horner ev a + sm2_horner ev b + carry = sm2_horner ev (r ++ [k]).
Proof.
  induction a as [|x a IH]; intros ev [|y b] carry L Hc Ha Hb; try discriminate.
  - exists [], carry. cbn. repeat split; lia.
  - inversion Ha as [|? ? Hx Ha']; inversion Hb as [|? ? Hy Hb']; subst. injection L as L.
    cbn [sm2_add_chain]. rewrite (u32_small (x + y)) by lia. rewrite u32_small by lia.
    set (c := x + y + carry). assert (Bc : 0 <= c < 2 ^ 32) by (subst c; lia).
    pose proof (digit29 c Bc) as (D1 & D2 & D3). pose proof (digit28 c Bc) as (D4 & D5 & D6).
    set (k' := if ev then shr c 29 else shr c 28).
    destruct (IH (negb ev) b k' L) as (r & k & E & Bk & V); try assumption.
    { subst k'. destruct ev; lia. }
    rewrite E. do 2 eexists. split; [reflexivity|]. split; [exact Bk|].
    cbn [app sm2_horner]. rewrite <- V. subst k' c. clear - D1 D4. destruct ev; cbv iota; lia.
Qed.
Lemma u32_idem c : u32 c = u32 (u32 c).
Proof. rewrite ?u32_eq. rewrite Z.mod_mod by discriminate. reflexivity. Qed.
Lemma add_chain_tight a0 a1 a2 a3 a4 a5 a6 a7 a8 b0 b1 b2 b3 b4 b5 b6 b7 b8 r k :
  sm2_add_chain true [a0; a1; a2; a3; a4; a5; a6; a7; a8] [b0; b1; b2; b3; b4; b5; b6; b7; b8] 0 = (r, k) ->
  fe_tight r /\ exists c, k = shr c 29 /\ c = u32 c.
Proof.
  intros E. cbn [sm2_add_chain negb] in E. injection E as <- <-. split.
  - repeat constructor; try apply m29_bound; try apply m28_bound.
  - eexists. split; [reflexivity|]. apply u32_idem.
Qed.
Lemma shr29_u32 c : c = u32 c -> 0 <= shr c 29 <= 7.
Proof. intros E. apply digit29. rewrite E, u32_eq. apply Z.mod_pos_bound. reflexivity. Qed.

Lemma horner_snoc9 r k : fe_tight r -> sm2_horner true (r ++ [k]) = sm2_horner true r + 2 ^ 257 * k.
Proof. intros H. fe_split H. cbn [app sm2_horner negb]. ring. Qed.

Lemma fe_ok_all a : fe_ok a -> Forall (fun x => 0 <= x < 2 ^ 30) a.
Proof. intros H. fe_split H. repeat constructor; lia. Qed.

Theorem sm2_add_spec a b : fe_ok a -> fe_ok b ->
  fe_ok (sm2_add a b) /\ exists q, sm2_horner true (sm2_add a b) = sm2_horner true a + sm2_horner true b - q * sm2_P.
Proof.
  intros Ha Hb. pose proof (fe_ok_all a Ha) as Fa. pose proof (fe_ok_all b Hb) as Fb.
  assert (L : length a = length b) by (apply Forall2_length in Ha; apply Forall2_length in Hb; congruence).
  destruct (add_chain a true b 0 L) as (r & k & E & _ & V); try assumption; [lia|].
  unfold sm2_add. rewrite E.
  assert (T : fe_tight r /\ 0 <= k <= 7).
  { fe_split Ha. fe_split Hb. apply add_chain_tight in E. destruct E as (T & c & -> & Ec).
    split; [exact T|]. apply shr29_u32. exact Ec. }
  destruct T as [T Bk]. destruct (reduce_carry_spec r k T Bk) as [O V2].
  split; [exact O|]. rewrite V2. rewrite horner_snoc9 in V by exact T.
  exists (2 * k). set (P := sm2_P) in *. clearbody P. clear - V. lia.
Qed.

Lemma sub_chain a : forall ev b z carry, length a = length b -> length a = length z -> 0 <= carry <= 15 ->
  Forall (fun x => 0 <= x < 2 ^ 30) a ->
  Forall2 (fun y w => 0 <= y <= w /\ w < 2 ^ 31 + 2 ^ 11) b z ->
  exists r k, sm2_sub_chain ev a b z carry = (r, k) /\ 0 <= k <= 15 /\
    sm2_horner ev a - sm2_horner ev b + sm2_horner ev z + carry = sm2_horner ev (r ++ [k]).
Proof.
  induction a as [|x a IH]; intros ev [|y b] [|w z] carry L1 L2 Hc Ha Hb; try discriminate.
  - exists [], carry. cbn. repeat split; lia.
  - inversion Ha as [|? ? Hx Ha']; inversion Hb as [|? ? ? ? Hy Hb']; subst. injection L1 as L1. injection L2 as L2.
    cbn [sm2_sub_chain].
    assert (Ec : u32 (u32 (u32 (x - y) + w) + carry) = x - y + w + carry).
    { rewrite ?u32_eq. rewrite Zplus_mod_idemp_l. rewrite <- Z.add_assoc, Zplus_mod_idemp_l.
      rewrite Z.mod_small by lia. ring. }
    rewrite Ec.
    set (c := x - y + w + carry). assert (Bc : 0 <= c < 2 ^ 32) by (subst c; lia).
    pose proof (digit29 c Bc) as (D1 & D2 & D3). pose proof (digit28 c Bc) as (D4 & D5 & D6).
    set (k' := if ev then shr c 29 else shr c 28).
    destruct (IH (negb ev) b z k' L1 L2) as (r & k & E & Bk & V); try assumption.
    { subst k'. destruct ev; lia. }
    rewrite E. do 2 eexists. split; [reflexivity|]. split; [exact Bk|].
    cbn [app sm2_horner]. rewrite <- V. subst k' c. clear - D1 D4. destruct ev; cbv iota; lia.
Qed.
Lemma sub_chain_tight a0 a1 a2 a3 a4 a5 a6 a7 a8 b0 b1 b2 b3 b4 b5 b6 b7 b8 r k :
  sm2_sub_chain true [a0; a1; a2; a3; a4; a5; a6; a7; a8] [b0; b1; b2; b3; b4; b5; b6; b7; b8] sm2_zero31 0 = (r, k) ->
  fe_tight r /\ exists c, k = shr c 29 /\ c = u32 c.
Proof.
  intros E. unfold sm2_zero31 in E. cbn [sm2_sub_chain negb] in E. injection E as <- <-. split.
  - repeat constructor; try apply m29_bound; try apply m28_bound.
  - eexists. split; [reflexivity|]. apply u32_idem.
Qed.

Theorem sm2_sub_spec a b : fe_ok a -> fe_ok b ->
  fe_ok (sm2_sub a b) /\ exists q, sm2_horner true (sm2_sub a b) = sm2_horner true a - sm2_horner true b - q * sm2_P.
Proof.
  intros Ha Hb. pose proof (fe_ok_all a Ha) as Fa.
  assert (L : length a = length b) by (apply Forall2_length in Ha; apply Forall2_length in Hb; congruence).
  assert (L2 : length a = length sm2_zero31) by (apply Forall2_length in Ha; rewrite <- Ha; reflexivity).
  assert (Fb : Forall2 (fun y w => 0 <= y <= w /\ w < 2 ^ 31 + 2 ^ 11) b sm2_zero31).
  { clear - Hb. fe_split Hb. unfold sm2_zero31. repeat constructor; lia. }
  destruct (sub_chain a true b sm2_zero31 0 L L2) as (r & k & E & _ & V); try assumption; [lia|].
  unfold sm2_sub. rewrite E.
  assert (T : fe_tight r /\ 0 <= k <= 7).
  { fe_split Ha. fe_split Hb. apply sub_chain_tight in E. destruct E as (T & c & -> & Ec).
    split; [exact T|]. apply shr29_u32. exact Ec. }
  destruct T as [T Bk]. destruct (reduce_carry_spec r k T Bk) as [O V2].
  split; [exact O|]. rewrite V2. rewrite horner_snoc9 in V by exact T.
  change (sm2_horner true sm2_zero31) with (8 * sm2_P) in V.
  exists (2 * k - 8). set (P := sm2_P) in *. clearbody P. clear - V. lia.
Qed.

(** ** The packing loop and the whole reduction *)
Lemma half28 t : 0 <= t < 2 ^ 32 -> t * 2 ^ 28 = 2 ^ 29 * shr t 1 + m29 (shl t 28) /\ 0 <= m29 (shl t 28) <= 2 ^ 28.
Proof.
  intros H. rewrite m29_shl by lia.
  change (2 ^ 29) with (2 * 2 ^ 28). rewrite Z.mul_mod_distr_r by discriminate.
  rewrite ?shr_eq by lia. change (2 ^ 1) with 2. pose proof (Z.div_mod t 2 ltac:(lia)). pose proof (Z.mod_pos_bound t 2 eq_refl). lia.
Qed.
Lemma pack_spec s1 s2 s3 s4 s5 s6 s7 s8 s9 :
  0 <= s1 <= 8 * u27 -> 0 <= s2 <= 13 * u27 -> 0 <= s3 <= 5 * u27 -> 0 <= s4 <= 8 * u27 ->
  0 <= s5 <= 4 * u27 -> 0 <= s6 <= 8 * u27 -> 0 <= s7 <= 4 * u27 -> 0 <= s8 <= 8 * u27 -> 0 <= s9 <= 19 * u27 ->
  exists r k, sm2_pack true [s1; s2; s3; s4; s5; s6; s7; s8; s9] 0 = (r, k) /\ fe_tight r /\ 0 <= k <= 7 /\
    sm2_horner false [s1; s2; s3; s4; s5; s6; s7; s8; s9] = sm2_horner true r + 2 ^ 257 * k.
Proof.
  intros H1 H2 H3 H4 H5 H6 H7 H8 H9. unfold u27 in *. cbn [sm2_pack negb].
  destruct (half28 s2) as [E2 B2]; [lia|]. destruct (half28 s4) as [E4 B4]; [lia|].
  destruct (half28 s6) as [E6 B6]; [lia|]. destruct (half28 s8) as [E8 B8]; [lia|].
  set (g2 := m29 (shl s2 28)) in *. set (g4 := m29 (shl s4 28)) in *. set (g6 := m29 (shl s6 28)) in *.
  set (g8 := m29 (shl s8 28)) in *. clearbody g2 g4 g6 g8.
  set (h2 := shr s2 1) in *. set (h4 := shr s4 1) in *. set (h6 := shr s6 1) in *. set (h8 := shr s8 1) in *.
  clearbody h2 h4 h6 h8.
  rewrite (u32_small (s1 + 0)) by lia. rewrite (u32_small (s1 + 0 + g2)) by lia.
  set (c1 := s1 + 0 + g2). pose proof (digit29 c1 ltac:(subst c1; lia)) as (D1 & M1 & S1).
  set (k1 := shr c1 29) in *. set (l1 := m29 c1) in *. clearbody k1 l1.
  rewrite (u32_small (h2 + k1)) by lia.
  set (c2 := h2 + k1). pose proof (digit28 c2 ltac:(subst c2; lia)) as (D2 & M2 & S2).
  set (k2 := shr c2 28) in *. set (l2 := m28 c2) in *. clearbody k2 l2.
  rewrite (u32_small (s3 + k2)) by lia. rewrite (u32_small (s3 + k2 + g4)) by lia.
  set (c3 := s3 + k2 + g4). pose proof (digit29 c3 ltac:(subst c3; lia)) as (D3 & M3 & S3).
  set (k3 := shr c3 29) in *. set (l3 := m29 c3) in *. clearbody k3 l3.
  rewrite (u32_small (h4 + k3)) by lia.
  set (c4 := h4 + k3). pose proof (digit28 c4 ltac:(subst c4; lia)) as (D4 & M4 & S4).
  set (k4 := shr c4 28) in *. set (l4 := m28 c4) in *. clearbody k4 l4.
  rewrite (u32_small (s5 + k4)) by lia. rewrite (u32_small (s5 + k4 + g6)) by lia.
  set (c5 := s5 + k4 + g6). pose proof (digit29 c5 ltac:(subst c5; lia)) as (D5 & M5 & S5).
  set (k5 := shr c5 29) in *. set (l5 := m29 c5) in *. clearbody k5 l5.
  rewrite (u32_small (h6 + k5)) by lia.
  set (c6 := h6 + k5). pose proof (digit28 c6 ltac:(subst c6; lia)) as (D6 & M6 & S6).
  set (k6 := shr c6 28) in *. set (l6 := m28 c6) in *. clearbody k6 l6.
  rewrite (u32_small (s7 + k6)) by lia. rewrite (u32_small (s7 + k6 + g8)) by lia.
  set (c7 := s7 + k6 + g8). pose proof (digit29 c7 ltac:(subst c7; lia)) as (D7 & M7 & S7).
  set (k7 := shr c7 29) in *. set (l7 := m29 c7) in *. clearbody k7 l7.
  rewrite (u32_small (h8 + k7)) by lia.
  set (c8 := h8 + k7). pose proof (digit28 c8 ltac:(subst c8; lia)) as (D8 & M8 & S8).
  set (k8 := shr c8 28) in *. set (l8 := m28 c8) in *. clearbody k8 l8.
  rewrite (u32_small (s9 + k8)) by lia.
  set (c9 := s9 + k8). pose proof (digit29 c9 ltac:(subst c9; lia)) as (D9 & M9 & S9).
  set (k9 := shr c9 29) in *. set (l9 := m29 c9) in *. clearbody k9 l9.
  do 2 eexists. split; [reflexivity|]. split; [repeat constructor; lia|]. split; [exact S9|].
  subst c1 c2 c3 c4 c5 c6 c7 c8 c9. clear - D1 D2 D3 D4 D5 D6 D7 D8 D9 E2 E4 E6 E8.
  cbn [sm2_horner negb].
  assert (s2 * 2 ^ 28 = 2 ^ 29 * h2 + g2 ) by exact E2. lia.
Qed.

(** The reduction of a 17-word product: Montgomery reduction by 2^257. *)
Lemma reduce_degree_spec b0 b1 b' b16 :
  b64 b0 -> b64 b1 -> Forall b64 b' -> length b' = 14%nat -> 0 <= b16 < 2 ^ 60 ->
  let b := b0 :: b1 :: b' ++ [b16] in
  sm2_red_safe 9 true (sm2_tmp b) = true ->
  fe_ok (sm2_reduce_degree b) /\
  exists q, 2 ^ 257 * sm2_horner true (sm2_reduce_degree b) = sm2_horner true b + q * sm2_P.
Proof.
  intros H0 H1 Hb L H16. cbv zeta. intros Hs.
  destruct (tmp_spec b0 b1 b' b16 H0 H1 Hb L H16) as (r & f & E & Lr & Ha & Hf & V).
  unfold sm2_reduce_degree. set (b := b0 :: b1 :: b' ++ [b16]) in *. clearbody b.
  rewrite E in Hs |- *.
  do 18 (destruct r as [|? r]; try discriminate). cbn [alt negb] in Ha. cbn [app] in *.
  destruct Ha as (A0 & A1 & A2 & A3 & A4 & A5 & A6 & A7 & A8 & A9 & A10 & A11 & A12 & A13 & A14 & A15 & A16 & _).
  match type of Hs with sm2_red_safe 9 true [?t0; ?t1; ?t2; ?t3; ?t4; ?t5; ?t6; ?t7; ?t8; ?t9; ?t10; ?t11; ?t12; ?t13; ?t14; ?t15; ?t16; ?t17] = true =>
    destruct (red_all t0 t1 t2 t3 t4 t5 t6 t7 t8 t9 t10 t11 t12 t13 t14 t15 t16 t17 A0 A1 A2 A3 A4 A5 A6 A7 A8 A9 A10 A11 A12 A13 A14 A15 A16 Hf Hs) as
      (s1 & s2 & s3 & s4 & s5 & s6 & s7 & s8 & s9 & q & ER & VR & Q & B1 & B2 & B3 & B4 & B5 & B6 & B7 & B8 & B9) end.
  cbv zeta in ER, VR. rewrite ER.
  destruct (pack_spec s1 s2 s3 s4 s5 s6 s7 s8 s9) as (a & k & EP & T & Bk & VP); try assumption.
  rewrite EP. destruct (reduce_carry_spec a k T Bk) as [O VC]. split; [exact O|].
  exists (q - 2 ^ 257 * 2 * k).
  rewrite VC. rewrite <- V. set (P := sm2_P) in *. clearbody P.
  match type of VR with ?x + _ = _ => set (X := x) in * end. clearbody X.
  set (Y := sm2_horner false _) in *. clearbody Y. set (W := sm2_horner true a) in *. clearbody W.
  clear - VR VP. nia.
Qed.

(** ** Products *)
Definition bnd (x B : Z) : Prop := 0 <= x <= B.
Lemma bnd_add x y A B : bnd x A -> bnd y B -> bnd (x + y) (A + B).
Proof. unfold bnd. lia. Qed.
Lemma bnd_mul x y A B : bnd x A -> bnd y B -> bnd (x * y) (A * B).
Proof. unfold bnd. intros H1 H2. split; [apply Z.mul_nonneg_nonneg; lia|apply Z.mul_le_mono_nonneg; lia]. Qed.
Lemma bnd_lt x B : 0 <= x < B -> bnd x (B - 1).
Proof. unfold bnd. lia. Qed.
Lemma bnd_2 : bnd 2 2. Proof. unfold bnd. lia. Qed.
Lemma bnd_4 : bnd 4 4. Proof. unfold bnd. lia. Qed.
Lemma bnd_out x B C : bnd x B -> B <? C = true -> 0 <= x < C.
Proof. unfold bnd. rewrite Z.ltb_lt. lia. Qed.
Ltac bound :=
  eapply bnd_out; [repeat first [eassumption | exact bnd_2 | exact bnd_4 | eapply bnd_add | eapply bnd_mul]|reflexivity].
Ltac to_bnd := repeat match goal with K : 0 <= _ < _ |- _ => apply bnd_lt in K end.

Definition prod_ok (l : list Z) (v : Z) : Prop :=
  exists b0 b1 b' b16, l = b0 :: b1 :: b' ++ [b16] /\
    b64 b0 /\ b64 b1 /\ Forall b64 b' /\ length b' = 14%nat /\ 0 <= b16 < 2 ^ 60 /\ sm2_horner true l = v.
Lemma prod_ok_intro p0 p1 p2 p3 p4 p5 p6 p7 p8 p9 p10 p11 p12 p13 p14 p15 p16 v :
  let l := [p0; p1; p2; p3; p4; p5; p6; p7; p8; p9; p10; p11; p12; p13; p14; p15] in
  Forall b64 l -> 0 <= p16 < 2 ^ 60 -> sm2_horner true (l ++ [p16]) = v ->
  prod_ok (map u64 (l ++ [p16])) v.
Proof.
  cbv zeta. intros F B V.
  assert (E : map u64 ([p0; p1; p2; p3; p4; p5; p6; p7; p8; p9; p10; p11; p12; p13; p14; p15] ++ [p16]) =
    [p0; p1; p2; p3; p4; p5; p6; p7; p8; p9; p10; p11; p12; p13; p14; p15] ++ [p16]).
  { rewrite <- (map_id (_ ++ _)) at 2. apply map_ext_in. intros x Hx. apply u64_small.
    apply in_app_iff in Hx. destruct Hx as [Hx|Hx].
    - rewrite Forall_forall in F. apply F, Hx.
    - destruct Hx as [<-|[]]. lia. }
  rewrite E. exists p0, p1, [p2; p3; p4; p5; p6; p7; p8; p9; p10; p11; p12; p13; p14; p15], p16.
  split; [reflexivity|]. inversion F as [|? ? F0 F']. inversion F' as [|? ? F1 F'']. subst.
  repeat split; try assumption; try apply F0; try apply F1; try apply B.
Qed.

Lemma products_spec a b : fe_ok a -> fe_ok b ->
  prod_ok (sm2_products a b) (sm2_horner true a * sm2_horner true b).
Proof.
  intros Ha Hb. fe_split Ha. fe_split Hb. unfold sm2_products. to_bnd.
  refine (prod_ok_intro _ _ _ _ _ _ _ _ _ _ _ _ _ _ _ _ _ _ _ _ _).
  - unfold b64. repeat (apply Forall_cons; [bound|]). apply Forall_nil.
  - bound.
  - cbn [app sm2_horner negb]. ring.
Qed.
Lemma squares_spec a : fe_ok a -> prod_ok (sm2_squares a) (sm2_horner true a * sm2_horner true a).
Proof.
  intros Ha. fe_split Ha. unfold sm2_squares. to_bnd.
  refine (prod_ok_intro _ _ _ _ _ _ _ _ _ _ _ _ _ _ _ _ _ _ _ _ _).
  - unfold b64. repeat (apply Forall_cons; [bound|]). apply Forall_nil.
  - bound.
  - cbn [app sm2_horner negb]. ring.
Qed.

Lemma reduce_prod l v : prod_ok l v -> sm2_red_safe 9 true (sm2_tmp l) = true ->
  fe_ok (sm2_reduce_degree l) /\ exists q, 2 ^ 257 * sm2_horner true (sm2_reduce_degree l) = v + q * sm2_P.
Proof.
  intros (b0 & b1 & b' & b16 & -> & H0 & H1 & H2 & L & H3 & <-) Hs.
  exact (reduce_degree_spec b0 b1 b' b16 H0 H1 H2 L H3 Hs).
Qed.

(** ** The value of an operand *)
Lemma RInv_ok : (2 ^ 257 * sm2_RInverse) mod sm2_P = 1.
Proof. vm_compute. reflexivity. Qed.
Lemma to_big_eq x y q : sm2_horner true x = y + q * sm2_P -> sm2_to_big x = (y * sm2_RInverse) mod sm2_P.
Proof.
  intros E. unfold sm2_to_big. rewrite E. rewrite Z.mul_add_distr_r.
  replace (q * sm2_P * sm2_RInverse) with (q * sm2_RInverse * sm2_P) by ring.
  apply Z_mod_plus_full.
Qed.
Theorem sm2_add_ok a b : fe_ok a -> fe_ok b ->
  fe_ok (sm2_add a b) /\ sm2_to_big (sm2_add a b) = (sm2_to_big a + sm2_to_big b) mod sm2_P.
Proof.
  intros Ha Hb. destruct (sm2_add_spec a b Ha Hb) as (O & q & E). split; [exact O|].
  rewrite (to_big_eq _ (sm2_horner true a + sm2_horner true b) (- q)) by lia.
  unfold sm2_to_big. rewrite Z.mul_add_distr_r. apply Zplus_mod.
Qed.
Theorem sm2_sub_ok a b : fe_ok a -> fe_ok b ->
  fe_ok (sm2_sub a b) /\ sm2_to_big (sm2_sub a b) = (sm2_to_big a - sm2_to_big b) mod sm2_P.
Proof.
  intros Ha Hb. destruct (sm2_sub_spec a b Ha Hb) as (O & q & E). split; [exact O|].
  rewrite (to_big_eq _ (sm2_horner true a - sm2_horner true b) (- q)) by lia.
  unfold sm2_to_big. rewrite Z.mul_sub_distr_r. apply Zminus_mod.
Qed.
Lemma mont_value x v q : 2 ^ 257 * sm2_horner true x = v + q * sm2_P ->
  sm2_to_big x = (v * sm2_RInverse * sm2_RInverse) mod sm2_P.
Proof.
  intros E. unfold sm2_to_big. set (h := sm2_horner true x) in *. clearbody h.
  pose proof RInv_ok as RI. pose proof (Z.div_mod (2 ^ 257 * sm2_RInverse) sm2_P ltac:(discriminate)) as D. rewrite RI in D.
  set (P := sm2_P) in *. set (R := sm2_RInverse) in *. clearbody P R.
  set (k := 2 ^ 257 * R / P) in *. clearbody k. set (W := 2 ^ 257) in *. clearbody W.
  assert (Z1 : h * R = v * R * R + (q * R * R - h * k * R) * P).
  { transitivity (h * R * (W * R) - h * R * (P * k)).
    - rewrite D. ring.
    - transitivity ((W * h) * R * R - h * R * (P * k)); [ring|]. rewrite E. ring. }
  rewrite Z1. apply Z_mod_plus_full.
Qed.
Lemma mont_mul x a b q : 2 ^ 257 * sm2_horner true x = sm2_horner true a * sm2_horner true b + q * sm2_P ->
  sm2_to_big x = (sm2_to_big a * sm2_to_big b) mod sm2_P.
Proof.
  intros E. rewrite (mont_value _ _ _ E). unfold sm2_to_big. rewrite <- Zmult_mod. f_equal. ring.
Qed.
Theorem sm2_mul_ok a b : fe_ok a -> fe_ok b -> mul_safe a b = true ->
  fe_ok (sm2_mul a b) /\ sm2_to_big (sm2_mul a b) = (sm2_to_big a * sm2_to_big b) mod sm2_P.
Proof.
  intros Ha Hb Hs. destruct (reduce_prod _ _ (products_spec a b Ha Hb) Hs) as (O & q & E).
  split; [exact O|]. exact (mont_mul _ _ _ q E).
Qed.
Theorem sm2_square_ok a : fe_ok a -> square_safe a = true ->
  fe_ok (sm2_square a) /\ sm2_to_big (sm2_square a) = (sm2_to_big a * sm2_to_big a) mod sm2_P.
Proof.
  intros Ha Hs. destruct (reduce_prod _ _ (squares_spec a Ha) Hs) as (O & q & E).
  split; [exact O|]. exact (mont_mul _ _ _ q E).
Qed.

(** ** Conversions *)
Lemma limbs_spec n : forall ev x, 0 <= x ->
  exists r, sm2_limbs n ev x ++ [r] = sm2_limbs n ev x ++ [r] /\ sm2_horner ev (sm2_limbs n ev x ++ [r]) = x /\ 0 <= r /\
    (forall B, x < B * sm2_horner ev (repeat 0 n ++ [1]) -> r < B).
Proof.
  induction n as [|n IH]; intros ev x Hx.
  - exists x. cbn. repeat split; try lia.
  - cbn [sm2_limbs].
    assert (E29 : m29 (u32 x) = x mod 2 ^ 29) by ((rewrite ?m29_eq; rewrite ?u32_eq); change 32 with (29 + 3); rewrite mod_pow_mod by lia; reflexivity).
    assert (E28 : m28 (u32 x) = x mod 2 ^ 28) by ((rewrite ?m28_eq; rewrite ?u32_eq); change 32 with (28 + 4); rewrite mod_pow_mod by lia; reflexivity).
    set (y := if ev then shr x 29 else shr x 28).
    assert (Hy : 0 <= y) by (subst y; rewrite ?shr_eq by lia; destruct ev; apply Z.div_pos; lia).
    destruct (IH (negb ev) y Hy) as (r & _ & V & R & B). exists r. split; [reflexivity|]. split; [|split; [exact R|]].
    + cbn [app sm2_horner]. rewrite V. subst y. rewrite ?shr_eq by lia.
      pose proof (Z.div_mod x (2 ^ 29) ltac:(lia)). pose proof (Z.div_mod x (2 ^ 28) ltac:(lia)).
      destruct ev; cbv iota; [rewrite E29|rewrite E28]; lia.
    + intros C HC. apply B. cbn [repeat app sm2_horner] in HC.
      set (h := sm2_horner (negb ev) (repeat 0 n ++ [1])) in *. clearbody h.
      subst y. rewrite ?shr_eq by lia. destruct ev; apply Z.div_lt_upper_bound; try lia.
Qed.
Lemma limbs_tight x : 0 <= x < 2 ^ 257 -> fe_tight (sm2_limbs 9 true x) /\ sm2_horner true (sm2_limbs 9 true x) = x.
Proof.
  intros H.
  assert (T : fe_tight (sm2_limbs 9 true x)).
  { cbn [sm2_limbs negb]. repeat constructor; try apply m29_bound; try apply m28_bound. }
  split; [exact T|]. destruct (limbs_spec 9 true x ltac:(lia)) as (r & _ & V & R & B).
  assert (r < 1).
  { apply B. change (sm2_horner true (repeat 0 9 ++ [1])) with (2 ^ 257). lia. }
  rewrite (horner_snoc9 _ _ T) in V. lia.
Qed.
Lemma from_big_horner a : fe_tight (sm2_from_big a) /\ sm2_horner true (sm2_from_big a) = (a * 2 ^ 257) mod sm2_P.
Proof.
  apply limbs_tight. pose proof (Z.mod_pos_bound (a * 2 ^ 257) sm2_P eq_refl) as H.
  assert (sm2_P < 2 ^ 257) by reflexivity. lia.
Qed.
Theorem sm2_from_big_ok a : fe_ok (sm2_from_big a) /\ sm2_to_big (sm2_from_big a) = a mod sm2_P.
Proof.
  destruct (from_big_horner a) as [T V]. split; [apply fe_tight_ok, T|].
  unfold sm2_to_big. rewrite V. rewrite Zmult_mod_idemp_l. rewrite <- Z.mul_assoc.
  rewrite Zmult_mod, RInv_ok. rewrite Z.mul_1_r. apply Z.mod_mod. discriminate.
Qed.
Lemma to_big_range a : 0 <= sm2_to_big a < sm2_P.
Proof. apply Z.mod_pos_bound. reflexivity. Qed.

(** ** An operand pair on which multiplication is wrong *)
Definition wit_a : fe := [0; 334374221; 0; 0; 1; 0; 1; 499598076; 1].
Definition wit_b : fe := [0; 0; 0; 0; 1; 0; 0; 0; 0].
Lemma wit_mul : fe_ok wit_a /\ fe_ok wit_b /\
  sm2_to_big (sm2_mul wit_a wit_b) <> (sm2_to_big wit_a * sm2_to_big wit_b) mod sm2_P.
Proof. split; [|split]; [repeat constructor; discriminate..|]. vm_compute. discriminate. Qed.
