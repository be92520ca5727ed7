(** Certified fast modular arithmetic on 63-bit machine integers, used only to
    evaluate closed number-theoretic facts (primality certificates, orders of
    base points).  Nothing here models /repo. *)
Require Import ZArith List Lia Uint63 Znumtheory.
Require Import Verif.Base Verif.Fp.
Import ListNotations.

Local Open Scope uint63_scope.

Definition mask : int := 268435455.

Fixpoint muladd2 (a q : int) (acc B M : list int) : list int :=
  match B, M with
  | b :: B', m :: M' =>
      match acc with
      | c :: acc' => (c + a * b + q * m) :: muladd2 a q acc' B' M'
      | [] => (a * b + q * m) :: muladd2 a q [] B' M'
      end
  | _, _ => []
  end.

Definition shift1 (l : list int) : list int :=
  match l with
  | x :: y :: r => (y + (x >> 28)) :: r
  | x :: [] => [x >> 28]
  | [] => []
  end.

Definition hd0 (l : list int) : int := match l with x :: _ => x | [] => 0 end.

Fixpoint mont (A B M : list int) (mi : int) (acc : list int) : list int :=
  match A with
  | [] => acc
  | a :: A' =>
      let q := ((hd0 acc + a * hd0 B) * mi) land mask in
      mont A' B M mi (shift1 (muladd2 a q acc B M))
  end.

Fixpoint carry (c : int) (l : list int) : option (list int) :=
  match l with
  | [] => if c =? 0 then Some [] else None
  | x :: r =>
      let t := x + c in
      match carry (t >> 28) r with
      | Some r' => Some ((t land mask) :: r')
      | None => None
      end
  end.

Fixpoint zipadd (A B : list int) : list int :=
  match A, B with
  | a :: A', b :: B' => (a + b) :: zipadd A' B'
  | _, _ => []
  end.

Definition mmul (M : list int) (mi : int) (A B : list int) : option (list int) :=
  carry 0 (mont A B M mi [] ++ [0]).
Definition madd (A B : list int) : option (list int) := carry 0 (zipadd A B).

(** Conversion of an integer to n limbs. *)
Fixpoint limbs (n : nat) (z : Z) : list int :=
  match n with
  | O => []
  | S n' => of_Z (z mod 2 ^ 28) :: limbs n' (z / 2 ^ 28)
  end.

Local Open Scope Z_scope.

Fixpoint lval (l : list int) : Z :=
  match l with
  | [] => 0
  | x :: r => to_Z x + 2 ^ 28 * lval r
  end.

Definition bnd (b : Z) (l : list int) : Prop := Forall (fun x => to_Z x <= b) l.
Definition norm (n : nat) (l : list int) : Prop := length l = n /\ bnd (2 ^ 28 - 1) l.

(** ** Primitive operations without overflow *)

Lemma wB63 : wB = 2 ^ 63. Proof. reflexivity. Qed.

Lemma i_add x y : to_Z x + to_Z y < 2 ^ 63 -> to_Z (x + y)%uint63 = to_Z x + to_Z y.
Proof.
  intros H. rewrite add_spec, wB63. apply Z.mod_small.
  pose proof (to_Z_bounded x). pose proof (to_Z_bounded y). lia.
Qed.

Lemma i_mul x y : to_Z x * to_Z y < 2 ^ 63 -> to_Z (x * y)%uint63 = to_Z x * to_Z y.
Proof.
  intros H. rewrite mul_spec, wB63. apply Z.mod_small.
  pose proof (to_Z_bounded x). pose proof (to_Z_bounded y). nia.
Qed.

Lemma i_mask x : to_Z (x land mask)%uint63 = to_Z x mod 2 ^ 28.
Proof.
  rewrite land_spec'. change (to_Z mask) with (Z.ones 28). apply Z.land_ones. lia.
Qed.

Lemma i_shr x : to_Z (x >> 28)%uint63 = to_Z x / 2 ^ 28.
Proof. rewrite lsr_spec. reflexivity. Qed.

Lemma i_nn x : 0 <= to_Z x < 2 ^ 63.
Proof. pose proof (to_Z_bounded x). rewrite wB63 in *. auto. Qed.

Lemma bnd_weaken b b' l : b <= b' -> bnd b l -> bnd b' l.
Proof. intros H. apply Forall_impl. lia. Qed.

Lemma muladd2_spec a q b0 : to_Z a < 2 ^ 28 -> to_Z q < 2 ^ 28 ->
  0 <= b0 -> b0 + 2 ^ 57 < 2 ^ 63 ->
  forall B M acc, bnd (2 ^ 28 - 1) B -> bnd (2 ^ 28 - 1) M -> bnd b0 acc ->
  length B = length M -> (length acc <= length B)%nat ->
  lval (muladd2 a q acc B M) = lval acc + to_Z a * lval B + to_Z q * lval M
  /\ bnd (b0 + 2 ^ 57) (muladd2 a q acc B M)
  /\ length (muladd2 a q acc B M) = length B
  /\ to_Z (hd0 (muladd2 a q acc B M)) = to_Z (hd0 acc) + to_Z a * to_Z (hd0 B) + to_Z q * to_Z (hd0 M).
Proof.
  intros Ha Hq Hb0 Hb0'.
  pose proof (i_nn a). pose proof (i_nn q).
  assert (P : forall x y c : int, to_Z x <= 2 ^ 28 - 1 -> to_Z y <= 2 ^ 28 - 1 -> to_Z c <= b0 ->
     to_Z (a * x + q * y)%uint63 = to_Z a * to_Z x + to_Z q * to_Z y /\
     to_Z (c + a * x + q * y)%uint63 = to_Z c + to_Z a * to_Z x + to_Z q * to_Z y /\
     to_Z a * to_Z x + to_Z q * to_Z y <= 2 ^ 57).
  { intros x y c Hx Hy Hc. pose proof (i_nn x). pose proof (i_nn y). pose proof (i_nn c).
    assert (X1 : to_Z a * to_Z x <= (2 ^ 28 - 1) * (2 ^ 28 - 1)) by (apply Z.mul_le_mono_nonneg; lia).
    assert (X2 : to_Z q * to_Z y <= (2 ^ 28 - 1) * (2 ^ 28 - 1)) by (apply Z.mul_le_mono_nonneg; lia).
    assert (E1 : to_Z (a * x)%uint63 = to_Z a * to_Z x) by (apply i_mul; lia).
    assert (E2 : to_Z (q * y)%uint63 = to_Z q * to_Z y) by (apply i_mul; lia).
    assert (E3 : to_Z (a * x + q * y)%uint63 = to_Z a * to_Z x + to_Z q * to_Z y)
      by (rewrite i_add; lia).
    assert (E4 : to_Z (c + a * x)%uint63 = to_Z c + to_Z a * to_Z x) by (rewrite i_add; lia).
    assert (E5 : to_Z (c + a * x + q * y)%uint63 = to_Z c + to_Z a * to_Z x + to_Z q * to_Z y)
      by (rewrite i_add; lia).
    split; [exact E3|split; [exact E5|lia]]. }
  induction B as [|b B IH]; intros M acc HB HM Hacc HL HA.
  - destruct M; [|discriminate]. destruct acc; [|cbn in HA; lia]. cbn.
    repeat split; try lia. constructor.
  - destruct M as [|m M]; [discriminate|].
    inversion HB as [|? ? Hb HB']; subst. inversion HM as [|? ? Hm HM']; subst.
    cbn [muladd2]. destruct acc as [|c acc].
    + destruct (P b m 0%uint63 Hb Hm) as (E1 & E2 & E3); [cbn; lia|].
      destruct (IH M [] HB' HM') as (V & Bd & L & _); [constructor|cbn in HL; lia|cbn; lia|].
      cbn [lval length hd0]. rewrite V, E1. cbn [lval]. change (to_Z 0) with 0.
      repeat split; try lia.
      constructor; [lia|exact Bd].
    + inversion Hacc as [|? ? Hc Hacc']; subst.
      destruct (P b m c Hb Hm Hc) as (E1 & E2 & E3).
      destruct (IH M acc HB' HM' Hacc') as (V & Bd & L & _); [cbn in HL; lia|cbn in HA; lia|].
      cbn [lval length hd0]. rewrite V, E2.
      repeat split; try lia.
      constructor; [lia|exact Bd].
Qed.

Lemma shift1_spec b l : 0 <= b < 2 ^ 62 -> bnd b l -> l <> [] -> to_Z (hd0 l) mod 2 ^ 28 = 0 ->
  2 ^ 28 * lval (shift1 l) = lval l /\ bnd (b + 2 ^ 35) (shift1 l)
  /\ (length (shift1 l) <= length l)%nat
  /\ ((2 <= length l)%nat -> length l = S (length (shift1 l))).
Proof.
  intros Hb HB Hn H0. destruct l as [|x [|y r]]; [congruence| |].
  - cbn [shift1 lval hd0] in *. rewrite i_shr. inversion HB; subst. pose proof (i_nn x). repeat split; try (cbn [length]; lia).
    constructor; [|constructor]. rewrite i_shr. lia.
  - cbn [shift1 lval hd0] in *.
    inversion HB as [|? ? Hx HB']; subst. inversion HB' as [|? ? Hy HB'']; subst.
    pose proof (i_nn x). pose proof (i_nn y).
    assert (E : to_Z (y + (x >> 28))%uint63 = to_Z y + to_Z x / 2 ^ 28).
    { rewrite i_add; rewrite i_shr; lia. }
    rewrite E. repeat split; try (cbn [length]; lia).
    constructor; [lia|]. eapply bnd_weaken; [|exact HB'']. lia.
Qed.

Lemma mont_spec M mi B : bnd (2 ^ 28 - 1) B -> bnd (2 ^ 28 - 1) M -> length B = length M ->
  (2 <= length M)%nat -> (to_Z mi * to_Z (hd0 M) + 1) mod 2 ^ 28 = 0 ->
  forall A i acc, bnd (2 ^ 28 - 1) A -> 0 <= i -> i + Z.of_nat (length A) <= 30 ->
  bnd (i * (2 ^ 57 + 2 ^ 36)) acc -> (length acc <= length B)%nat ->
  (lval (mont A B M mi acc) * 2 ^ (28 * Z.of_nat (length A))) mod lval M
   = (lval acc + lval A * lval B) mod lval M
  /\ bnd (30 * (2 ^ 57 + 2 ^ 36)) (mont A B M mi acc)
  /\ (A <> [] -> S (length (mont A B M mi acc)) = length M).
Proof.
  intros HB HM HL HM2 Hmi.
  induction A as [|a A IH]; intros i acc HA Hi Hi2 Hacc Hlen.
  - cbn [mont lval length]. change (28 * Z.of_nat 0) with 0. cbn [Z.pow]. rewrite Z.mul_1_r.
    rewrite Z.mul_0_l, Z.add_0_r. repeat split; [|congruence].
    eapply bnd_weaken; [|exact Hacc]. cbn [length] in Hi2. lia.
  - cbn [mont]. inversion HA as [|? ? Ha HA']; subst.
    set (q := (((hd0 acc + a * hd0 B) * mi) land mask)%uint63).
    assert (Hq : to_Z q < 2 ^ 28) by (unfold q; rewrite i_mask; lia).
    cbn [length] in Hi2.
    destruct (muladd2_spec a q (i * (2 ^ 57 + 2 ^ 36)) ltac:(lia) Hq ltac:(lia) ltac:(lia) B M acc HB HM Hacc HL Hlen)
      as (V & Bd & L & H0).
    set (T := muladd2 a q acc B M) in *.
    assert (D : to_Z (hd0 T) mod 2 ^ 28 = 0).
    { rewrite H0. unfold q. rewrite i_mask.
      rewrite mul_spec, wB63.
      assert (Hh : to_Z (hd0 acc + a * hd0 B)%uint63 mod 2 ^ 28
                   = (to_Z (hd0 acc) + to_Z a * to_Z (hd0 B)) mod 2 ^ 28).
      { rewrite add_spec, mul_spec, wB63.
        rewrite Zplus_mod_idemp_r. rewrite <- Znumtheory.Zmod_div_mod; try lia.
        exists (2 ^ 35). reflexivity. }
      set (u := to_Z (hd0 acc + a * hd0 B)%uint63) in *.
      rewrite <- (Znumtheory.Zmod_div_mod (2 ^ 28) (2 ^ 63)) by (try lia; exists (2 ^ 35); reflexivity).
      set (s := to_Z (hd0 acc) + to_Z a * to_Z (hd0 B)) in *.
      rewrite Z.add_mod, <- Hh by lia.
      rewrite (Z.mul_mod ((u * to_Z mi) mod 2 ^ 28)), Zmod_mod, <- Z.mul_mod, <- Z.add_mod by lia.
      replace (u + u * to_Z mi * to_Z (hd0 M)) with (u * (to_Z mi * to_Z (hd0 M) + 1)) by ring.
      rewrite Z.mul_mod, Hmi, Z.mul_0_r by lia. reflexivity. }
    assert (HT : T <> []) by (intros E; rewrite E in L; cbn in L; lia).
    destruct (shift1_spec (i * (2 ^ 57 + 2 ^ 36) + 2 ^ 57) T ltac:(lia) Bd HT D) as (V2 & Bd2 & L2 & L3).
    specialize (L3 ltac:(lia)).
    destruct (IH (i + 1) (shift1 T) HA' ltac:(lia) ltac:(lia)) as (V3 & Bd3 & L4).
    + eapply bnd_weaken; [|exact Bd2]. lia.
    + lia.
    + split; [|split; [exact Bd3|]].
      * assert (HPM : 0 <= lval M).
        { clear. induction M; cbn [lval]; [lia|]. pose proof (i_nn a). lia. }
        destruct (Z.eq_dec (lval M) 0) as [E0|E0].
        { rewrite E0, !Zmod_0_r in *. cbn [length lval].
          rewrite Nat2Z.inj_succ, Z.mul_succ_r, Z.pow_add_r by lia.
          rewrite Z.mul_assoc, V3. lia. }
        cbn [length lval].
        rewrite Nat2Z.inj_succ, Z.mul_succ_r, Z.pow_add_r by lia.
        rewrite Z.mul_assoc, Z.mul_mod, V3, <- Z.mul_mod by auto.
        replace ((lval (shift1 T) + lval A * lval B) * 2 ^ 28)
          with (2 ^ 28 * lval (shift1 T) + 2 ^ 28 * lval A * lval B) by ring.
        rewrite V2, V.
        replace (lval acc + to_Z a * lval B + to_Z q * lval M + 2 ^ 28 * lval A * lval B)
          with (lval acc + (to_Z a + 2 ^ 28 * lval A) * lval B + to_Z q * lval M) by ring.
        apply Z_mod_plus_full.
      * intros _. destruct A as [|a' A].
        { cbn [mont]. rewrite <- L3, L. exact HL. }
        apply L4. discriminate.
Qed.

Lemma carry_spec : forall l c r, bnd (2 ^ 62) l -> to_Z c <= 2 ^ 35 -> carry c l = Some r ->
  lval r = lval l + to_Z c /\ norm (length l) r.
Proof.
  induction l as [|x l IH]; intros c r HB Hc E; cbn [carry] in E.
  - destruct (c =? 0)%uint63 eqn:Ec; [|discriminate]. injection E as <-.
    apply eqb_spec in Ec. subst c. cbn. repeat split; constructor.
  - inversion HB as [|? ? Hx HB']; subst.
    destruct (carry ((x + c) >> 28) l) as [r'|] eqn:E'; [|discriminate].
    injection E as <-.
    pose proof (i_nn x). pose proof (i_nn c).
    assert (Et : to_Z (x + c)%uint63 = to_Z x + to_Z c) by (apply i_add; lia).
    apply IH in E'; [|exact HB'|rewrite i_shr, Et; lia].
    destruct E' as (V & L & N). cbn [lval]. rewrite V, i_mask, i_shr, Et.
    split; [lia|]. split; [cbn; lia|].
    constructor; [rewrite i_mask; lia|exact N].
Qed.

Lemma lval_snoc0 l : lval (l ++ [0%uint63]) = lval l.
Proof. induction l; cbn [app lval]; [reflexivity|]. rewrite IHl. reflexivity. Qed.

Lemma mmul_spec n M mi A B C : norm n M -> norm n A -> norm n B -> (2 <= n <= 30)%nat ->
  (to_Z mi * to_Z (hd0 M) + 1) mod 2 ^ 28 = 0 ->
  mmul M mi A B = Some C ->
  norm n C /\ (lval C * 2 ^ (28 * Z.of_nat n)) mod lval M = (lval A * lval B) mod lval M.
Proof.
  intros [LM HM] [LA HA] [LB HB] Hn Hmi E. unfold mmul in E.
  destruct (mont_spec M mi B HB HM ltac:(lia) ltac:(lia) Hmi A 0 [] HA ltac:(lia) ltac:(lia))
    as (V & Bd & L); [constructor|cbn; lia|].
  apply carry_spec in E; [| |cbn; lia].
  - destruct E as (V2 & N). rewrite lval_snoc0 in V2. change (to_Z 0) with 0 in V2.
    rewrite app_length in N. cbn [length] in N.
    rewrite Z.add_0_r in V2. rewrite V2.
    split.
    + rewrite Nat.add_1_r in N. rewrite L in N; [rewrite LM in N; exact N|].
      intros ->. cbn in LA. lia.
    + rewrite LA in V. rewrite V. cbn [lval]. rewrite Z.add_0_l. reflexivity.
  - apply Forall_app. split.
    + eapply bnd_weaken; [|exact Bd]. lia.
    + constructor; [cbn; lia|constructor].
Qed.

Lemma zipadd_spec : forall A B n, norm n A -> norm n B ->
  lval (zipadd A B) = lval A + lval B /\ bnd (2 ^ 62) (zipadd A B) /\ length (zipadd A B) = n.
Proof.
  induction A as [|a A IH]; intros B n [LA HA] [LB HB].
  - destruct B; cbn in *; [|lia]. repeat split; auto; constructor.
  - destruct B as [|b B]; cbn in LA, LB; [lia|].
    inversion HA as [|? ? Ha HA']; subst. inversion HB as [|? ? Hb HB']; subst.
    destruct (IH B (length A)) as (V & Bd & L); [split; auto|split; [lia|auto]|].
    pose proof (i_nn a). pose proof (i_nn b).
    assert (E : to_Z (a + b)%uint63 = to_Z a + to_Z b) by (apply i_add; lia).
    cbn [zipadd lval length]. rewrite V, E. repeat split; try lia.
    constructor; [lia|exact Bd].
Qed.

Lemma madd_spec n A B C : norm n A -> norm n B -> madd A B = Some C ->
  norm n C /\ lval C = lval A + lval B.
Proof.
  intros HA HB E. unfold madd in E.
  destruct (zipadd_spec A B n HA HB) as (V & Bd & L).
  apply carry_spec in E; [|exact Bd|cbn; lia].
  destruct E as (V2 & N). rewrite L in N. split; [exact N|]. rewrite V2, V. cbn. lia.
Qed.

Lemma limbs_norm n z : norm n (limbs n z).
Proof.
  revert z; induction n; intros z; [split; [reflexivity|constructor]|].
  cbn [limbs]. destruct (IHn (z / 2 ^ 28)) as [L B]. split; [cbn [length]; rewrite L; reflexivity|].
  constructor; [|exact B]. rewrite of_Z_spec, wB63.
  pose proof (Z.mod_pos_bound z (2 ^ 28) eq_refl) as X.
  rewrite (Z.mod_small (z mod 2 ^ 28)) by (revert X; generalize (z mod 2 ^ 28); lia). lia.
Qed.

Lemma limbs_val n z : 0 <= z < 2 ^ (28 * Z.of_nat n) -> lval (limbs n z) = z.
Proof.
  revert z; induction n; intros z Hz.
  - cbn in *. lia.
  - cbn [limbs lval]. pose proof (Z.mod_pos_bound z (2 ^ 28) eq_refl) as X.
    rewrite of_Z_spec, wB63, (Z.mod_small (z mod 2 ^ 28)) by (revert X; generalize (z mod 2 ^ 28); lia).
    rewrite IHn; [lia|].
    rewrite Nat2Z.inj_succ, Z.mul_succ_r, Z.pow_add_r in Hz by lia.
    split; [lia|]. apply Z.div_lt_upper_bound; lia.
Qed.

(** ** A modular arithmetic context

    [mctx] packages a modulus p with its limbs; [mrel c l x] says that the limb
    list l represents the residue x in Montgomery form. *)
Record mctx := {
  mc_n : nat;          (* number of limbs *)
  mc_p : Z;            (* modulus *)
  mc_M : list int;     (* its limbs *)
  mc_mi : int;         (* -p^-1 mod 2^28 *)
  mc_r : Z;            (* R^-1 mod p *)
  mc_m1 : list int     (* Montgomery form of -1 *)
}.

Definition mk_mctx (n : nat) (p : Z) : mctx :=
  let mi := match mod_inverse (- p) (2 ^ 28) with Some i => i | None => 0 end in
  let r := match mod_inverse (2 ^ (28 * Z.of_nat n)) p with Some i => i | None => 0 end in
  {| mc_n := n; mc_p := p; mc_M := limbs n p; mc_mi := of_Z mi; mc_r := r;
     mc_m1 := limbs n ((- (2 ^ (28 * Z.of_nat n))) mod p) |}.

Definition mctx_ok (c : mctx) : bool :=
  (1 <? mc_p c) && (2 <=? mc_n c)%nat && (mc_n c <=? 30)%nat
  && (forallb (fun x => (x <=? mask)%uint63) (mc_M c))
  && (length (mc_M c) =? mc_n c)%nat
  && (lval (mc_M c) =? mc_p c)
  && ((to_Z (mc_mi c) * to_Z (hd0 (mc_M c)) + 1) mod 2 ^ 28 =? 0)
  && ((mc_r c * 2 ^ (28 * Z.of_nat (mc_n c))) mod mc_p c =? 1)
  && (forallb (fun x => (x <=? mask)%uint63) (mc_m1 c))
  && (length (mc_m1 c) =? mc_n c)%nat
  && ((lval (mc_m1 c) * mc_r c + 1) mod mc_p c =? 0).

Definition mrel (c : mctx) (l : list int) (x : fp (mc_p c)) : Prop :=
  norm (mc_n c) l /\ fp_of (mc_p c) (lval l * mc_r c) = x.

Definition c_mul (c : mctx) := mmul (mc_M c) (mc_mi c).
Definition c_opp (c : mctx) (a : list int) := mmul (mc_M c) (mc_mi c) a (mc_m1 c).
Definition c_sub (c : mctx) (a b : list int) :=
  match c_opp c b with Some b' => madd a b' | None => None end.
(** Montgomery form of an integer. *)
Definition c_of (c : mctx) (z : Z) : list int :=
  limbs (mc_n c) ((z * 2 ^ (28 * Z.of_nat (mc_n c))) mod mc_p c).

Lemma forallb_bnd l : forallb (fun x => (x <=? mask)%uint63) l = true -> bnd (2 ^ 28 - 1) l.
Proof.
  rewrite forallb_forall. intros H. apply Forall_forall. intros x Hx.
  apply H in Hx. apply leb_spec in Hx. change (to_Z mask) with (2 ^ 28 - 1) in Hx. lia.
Qed.

Section Ctx.
Variable c : mctx.
Hypothesis Hok : mctx_ok c = true.
Let p := mc_p c.

Lemma ctx_facts :
  1 < p /\ (2 <= mc_n c <= 30)%nat /\ norm (mc_n c) (mc_M c) /\ lval (mc_M c) = p /\
  (to_Z (mc_mi c) * to_Z (hd0 (mc_M c)) + 1) mod 2 ^ 28 = 0 /\
  (mc_r c * 2 ^ (28 * Z.of_nat (mc_n c))) mod p = 1 /\
  norm (mc_n c) (mc_m1 c) /\ (lval (mc_m1 c) * mc_r c + 1) mod p = 0.
Proof.
  unfold mctx_ok in Hok. rewrite !Bool.andb_true_iff in Hok.
  destruct Hok as ((((((((((H1 & H2) & H3) & H4) & H5) & H6) & H7) & H8) & H9) & H10) & H11).
  apply forallb_bnd in H4, H9.
  repeat split; auto; unfold p; lia.
Qed.

Lemma c_mul_rel a b x y r : mrel c a x -> mrel c b y -> c_mul c a b = Some r ->
  mrel c r (fp_mul x y).
Proof.
  intros [Na Ea] [Nb Eb] E.
  destruct ctx_facts as (H1 & H2 & H3 & H4 & H5 & H6 & H7 & H8).
  apply (mmul_spec (mc_n c)) in E; auto. destruct E as [Nr Er].
  split; [exact Nr|]. subst x y. rewrite <- fp_of_mul. apply fp_of_eq.
  rewrite H4 in Er. fold p.
  set (R := 2 ^ (28 * Z.of_nat (mc_n c))) in *.
  assert (X : (lval r * R * (mc_r c * mc_r c)) mod p = (lval a * lval b * (mc_r c * mc_r c)) mod p).
  { rewrite Z.mul_mod, Er, <- Z.mul_mod by lia. reflexivity. }
  replace (lval r * R * (mc_r c * mc_r c)) with (lval r * mc_r c * (mc_r c * R)) in X by ring.
  rewrite Z.mul_mod, H6, Z.mul_1_r, Zmod_mod in X by lia. rewrite X. f_equal. ring.
Qed.

Lemma m1_rel : mrel c (mc_m1 c) (fp_of p (-1)).
Proof.
  destruct ctx_facts as (H1 & H2 & H3 & H4 & H5 & H6 & H7 & H8).
  split; [exact H7|]. apply fp_of_eq. fold p.
  apply Z.mod_divide in H8; [|lia]. destruct H8 as [q Hq].
  replace (lval (mc_m1 c) * mc_r c) with (-1 + q * p) by lia.
  apply Z_mod_plus_full.
Qed.

Lemma c_opp_rel a x r : mrel c a x -> c_opp c a = Some r -> mrel c r (fp_opp x).
Proof.
  intros Ha E. pose proof (c_mul_rel _ _ _ _ _ Ha m1_rel E) as H.
  replace (fp_opp x) with (fp_mul x (fp_of p (-1))); [exact H|].
  fold p in x. rewrite <- (fp_of_val _ x), <- fp_of_mul, <- fp_of_opp. f_equal. ring.
Qed.

Lemma madd_rel a b x y r : mrel c a x -> mrel c b y -> madd a b = Some r ->
  mrel c r (fp_add x y).
Proof.
  intros [Na Ea] [Nb Eb] E. apply (madd_spec (mc_n c)) in E; auto. destruct E as [Nr Er].
  split; [exact Nr|]. subst x y. rewrite <- fp_of_add, Er. f_equal. ring.
Qed.

Lemma c_sub_rel a b x y r : mrel c a x -> mrel c b y -> c_sub c a b = Some r ->
  mrel c r (fp_sub x y).
Proof.
  intros Ha Hb E. unfold c_sub in E. destruct (c_opp c b) as [b'|] eqn:Eb; [|discriminate].
  apply (c_opp_rel _ _ _ Hb) in Eb.
  pose proof (madd_rel _ _ _ _ _ Ha Eb E) as H.
  replace (fp_sub x y) with (fp_add x (fp_opp y)); [exact H|].
  rewrite <- (fp_of_val _ x), <- (fp_of_val _ y), <- fp_of_opp, <- fp_of_add, <- fp_of_sub.
  f_equal.
Qed.

Lemma lval_limbs_mod z : lval (limbs (mc_n c) (z mod p)) = z mod p.
Proof.
  destruct ctx_facts as (H1 & H2 & [LM HM] & H4 & _).
  apply limbs_val. pose proof (Z.mod_pos_bound z p ltac:(lia)).
  assert (forall l, bnd (2 ^ 28 - 1) l -> lval l < 2 ^ (28 * Z.of_nat (length l))) as X.
  { induction l as [|x l IH]; intros HB; [cbn; lia|].
    inversion HB as [|? ? HBx HBl]; subst. cbn [lval length].
    rewrite Nat2Z.inj_succ, Z.mul_succ_r, Z.pow_add_r by lia. specialize (IH HBl). lia. }
  apply X in HM. rewrite LM, H4 in HM. lia.
Qed.

Lemma c_of_rel z : mrel c (c_of c z) (fp_of p z).
Proof.
  destruct ctx_facts as (H1 & H2 & H3 & H4 & H5 & H6 & H7 & H8).
  split; [apply limbs_norm|]. unfold c_of. fold p. rewrite lval_limbs_mod.
  apply fp_of_eq. rewrite Zmult_mod_idemp_l.
  set (R := 2 ^ (28 * Z.of_nat (mc_n c))) in *.
  replace (z * R * mc_r c) with (z * (mc_r c * R)) by ring.
  rewrite Z.mul_mod, H6, Z.mul_1_r, Zmod_mod by lia. reflexivity.
Qed.

(** Residue represented by a limb list. *)
Definition c_val (l : list int) : Z := (lval l * mc_r c) mod p.

Lemma c_val_rel l x : mrel c l x -> c_val l = fval x.
Proof. intros [_ <-]. reflexivity. Qed.

(** Exponentiation. *)
Fixpoint c_pow (a : list int) (e : positive) : option (list int) :=
  match e with
  | xH => Some a
  | xO e' => match c_pow a e' with Some t => c_mul c t t | None => None end
  | xI e' => match c_pow a e' with
             | Some t => match c_mul c t t with Some u => c_mul c u a | None => None end
             | None => None
             end
  end.

Lemma c_pow_rel a z e r : mrel c a (fp_of p z) -> c_pow a e = Some r ->
  mrel c r (fp_of p (z ^ Zpos e)).
Proof.
  intros Ha. revert r. induction e as [e IH|e IH|]; intros r E; cbn [c_pow] in E.
  - destruct (c_pow a e) as [t|] eqn:Et; [|discriminate].
    destruct (c_mul c t t) as [u|] eqn:Eu; [|discriminate].
    specialize (IH _ eq_refl).
    pose proof (c_mul_rel _ _ _ _ _ IH IH Eu) as Hu.
    pose proof (c_mul_rel _ _ _ _ _ Hu Ha E) as Hr.
    fold p in Hr. rewrite <- !fp_of_mul in Hr.
    replace (z ^ Z.pos e~1) with (z ^ Z.pos e * z ^ Z.pos e * z); [exact Hr|].
    replace (Z.pos e~1) with (Z.pos e + Z.pos e + 1) by lia.
    rewrite !Z.pow_add_r, Z.pow_1_r by lia. reflexivity.
  - destruct (c_pow a e) as [t|] eqn:Et; [|discriminate].
    specialize (IH _ eq_refl).
    pose proof (c_mul_rel _ _ _ _ _ IH IH E) as Hr.
    fold p in Hr. rewrite <- !fp_of_mul in Hr.
    replace (z ^ Z.pos e~0) with (z ^ Z.pos e * z ^ Z.pos e); [exact Hr|].
    replace (Z.pos e~0) with (Z.pos e + Z.pos e) by lia.
    rewrite !Z.pow_add_r by lia. reflexivity.
  - injection E as <-. rewrite Z.pow_1_r. exact Ha.
Qed.

(** z^e mod p, or None if a bound check failed. *)
Definition c_powmod (z : Z) (e : positive) : option Z :=
  match c_pow (c_of c z) e with Some r => Some (c_val r) | None => None end.

Lemma c_powmod_spec z e v : c_powmod z e = Some v -> (z ^ Zpos e) mod p = v.
Proof.
  unfold c_powmod. destruct (c_pow (c_of c z) e) as [r|] eqn:E; [|discriminate].
  intros [= <-]. apply (c_pow_rel _ z) in E; [|apply c_of_rel].
  rewrite (c_val_rel _ _ E). reflexivity.
Qed.

End Ctx.
