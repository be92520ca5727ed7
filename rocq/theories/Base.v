(** Byte strings, big-endian and little-endian integers, modular inverse:
    vocabulary shared by the specifications and the models.

    A byte is a Z in [0, 256); a Go []byte is a [list Z]; a Go []byte that may
    be nil is an [option (list Z)].  A math/big.Int is a Z. *)
Require Import ZArith List Lia Znumtheory.
Require Export ZifyBool ZifyNat ZifyN.
Import ListNotations.
Open Scope Z_scope.
Ltac Zify.zify_post_hook ::= Z.div_mod_to_equations.

Definition bytes := list Z.
Definition byte_ok (b : Z) : Prop := 0 <= b < 256.
Definition bytes_ok (l : bytes) : Prop := Forall byte_ok l.

(** Little-endian value of a byte string. *)
Fixpoint le2z (l : bytes) : Z :=
  match l with
  | [] => 0
  | b :: t => b + 256 * le2z t
  end.

(** Big-endian value: math/big SetBytes. *)
Definition be2z (l : bytes) : Z := le2z (rev l).

(** The n low-order bytes of z, little-endian and big-endian. *)
Fixpoint z2le (n : nat) (z : Z) : bytes :=
  match n with
  | O => []
  | S n' => z mod 256 :: z2le n' (z / 256)
  end.
Definition z2be (n : nat) (z : Z) : bytes := rev (z2le n z).

(** Number of bytes of the minimal big-endian form of z >= 0. *)
Definition nbytes (z : Z) : nat :=
  if z <=? 0 then O else S (Z.to_nat (Z.log2 z / 8)).

(** math/big Bytes(): minimal big-endian form, empty for 0. *)
Definition big_bytes (z : Z) : bytes := z2be (nbytes z) z.

(** Left padding with zero bytes up to 32 bytes, as the loops
    [for len(x) < 32 { x = append([]byte{0}, x...) }] do. *)
Definition pad32 (l : bytes) : bytes := repeat 0 (32 - length l) ++ l.

(** Result of a Go call that may panic. *)
Inductive outcome (A : Type) : Type := Ret (a : A) | Panic.
Arguments Ret {A} a.
Arguments Panic {A}.

(** math/big ModInverse(a, n) for n > 0: extended Euclid; [None] is nil. *)
Fixpoint egcd (fuel : nat) (r0 r1 s0 s1 : Z) : Z * Z :=
  match fuel with
  | O => (r0, s0)
  | S f => if r1 =? 0 then (r0, s0)
           else egcd f r1 (r0 mod r1) s1 (s0 - r0 / r1 * s1)
  end.
Definition egcd_fuel (n : Z) : nat := Z.to_nat (2 * Z.log2 n + 6).
Definition mod_inverse (a n : Z) : option Z :=
  let '(g, s) := egcd (egcd_fuel n) n (a mod n) 0 1 in
  if g =? 1 then Some (s mod n) else None.

(** Modular exponentiation b^e mod m: math/big Exp for m > 0, e >= 0. *)
Fixpoint pow_mod_pos (b : Z) (e : positive) (m : Z) : Z :=
  match e with
  | xH => b mod m
  | xO e' => let t := pow_mod_pos b e' m in (t * t) mod m
  | xI e' => let t := pow_mod_pos b e' m in (((t * t) mod m) * b) mod m
  end.
Definition pow_mod (b e m : Z) : Z :=
  match e with
  | Zpos e' => pow_mod_pos b e' m
  | _ => 1 mod m
  end.

(** ** Lemmas *)

Lemma le2z_app a b : le2z (a ++ b) = le2z a + 256 ^ Z.of_nat (length a) * le2z b.
Proof.
  induction a as [|x a IH].
  - cbn [app le2z length]. change (256 ^ Z.of_nat 0) with 1. ring.
  - cbn [app le2z length]. rewrite IH, Nat2Z.inj_succ, Z.pow_succ_r by lia. ring.
Qed.

Lemma be2z_nil : be2z [] = 0.
Proof. reflexivity. Qed.

Lemma be2z_snoc l b : be2z (l ++ [b]) = 256 * be2z l + b.
Proof. unfold be2z. rewrite rev_app_distr. cbn. ring. Qed.

Lemma be2z_app a b : be2z (a ++ b) = be2z a * 256 ^ Z.of_nat (length b) + be2z b.
Proof. unfold be2z. rewrite rev_app_distr, le2z_app, rev_length. ring. Qed.

Lemma be2z_cons b l : be2z (b :: l) = b * 256 ^ Z.of_nat (length l) + be2z l.
Proof. change (b :: l) with ([b] ++ l). rewrite be2z_app. unfold be2z at 1. cbn [rev app le2z]. ring. Qed.

Lemma le2z_nonneg l : bytes_ok l -> 0 <= le2z l.
Proof.
  induction 1 as [|b l Hb Hl IH]; cbn [le2z]; [lia|]. red in Hb. lia.
Qed.

Lemma le2z_bound l : bytes_ok l -> 0 <= le2z l < 256 ^ Z.of_nat (length l).
Proof.
  induction 1 as [|b l Hb Hl IH]; cbn [le2z length].
  - change (256 ^ Z.of_nat 0) with 1. lia.
  - rewrite Nat2Z.inj_succ, Z.pow_succ_r by lia. red in Hb. lia.
Qed.

Lemma bytes_ok_rev l : bytes_ok l -> bytes_ok (rev l).
Proof. unfold bytes_ok. rewrite !Forall_forall. intros H x Hx. apply H, in_rev, Hx. Qed.

Lemma bytes_ok_app a b : bytes_ok a -> bytes_ok b -> bytes_ok (a ++ b).
Proof. intros. apply Forall_app. auto. Qed.

Lemma bytes_ok_firstn n l : bytes_ok l -> bytes_ok (firstn n l).
Proof.
  unfold bytes_ok. rewrite !Forall_forall. intros H x Hx. apply H.
  rewrite <- (firstn_skipn n l). apply in_or_app. auto.
Qed.

Lemma bytes_ok_skipn n l : bytes_ok l -> bytes_ok (skipn n l).
Proof.
  unfold bytes_ok. rewrite !Forall_forall. intros H x Hx. apply H.
  rewrite <- (firstn_skipn n l). apply in_or_app. auto.
Qed.

Lemma be2z_bound l : bytes_ok l -> 0 <= be2z l < 256 ^ Z.of_nat (length l).
Proof.
  intros H. unfold be2z. rewrite <- rev_length. apply le2z_bound, bytes_ok_rev, H.
Qed.

Lemma z2le_length n z : length (z2le n z) = n.
Proof. revert z; induction n; intros; cbn; auto. Qed.

Lemma z2be_length n z : length (z2be n z) = n.
Proof. unfold z2be. rewrite rev_length. apply z2le_length. Qed.

Lemma z2le_ok n z : bytes_ok (z2le n z).
Proof.
  revert z; induction n; intros; cbn; constructor; [red; lia|apply IHn].
Qed.

Lemma z2be_ok n z : bytes_ok (z2be n z).
Proof. apply bytes_ok_rev, z2le_ok. Qed.

Lemma le2z_z2le n z : le2z (z2le n z) = z mod 256 ^ Z.of_nat n.
Proof.
  revert z; induction n; intros.
  - cbn. rewrite Z.mod_1_r. reflexivity.
  - cbn [z2le le2z]. rewrite IHn, Nat2Z.inj_succ, Z.pow_succ_r by lia.
    assert (0 < 256 ^ Z.of_nat n) by (apply Z.pow_pos_nonneg; lia).
    rewrite Z.rem_mul_r by lia. lia.
Qed.

Lemma be2z_z2be n z : be2z (z2be n z) = z mod 256 ^ Z.of_nat n.
Proof. unfold be2z, z2be. rewrite rev_involutive. apply le2z_z2le. Qed.

Lemma z2le_le2z l : bytes_ok l -> z2le (length l) (le2z l) = l.
Proof.
  induction 1 as [|b l Hb Hl IH]; [reflexivity|].
  cbn [length z2le le2z]. red in Hb. f_equal.
  - rewrite (Z.mul_comm 256), Z_mod_plus_full. apply Z.mod_small; lia.
  - rewrite (Z.mul_comm 256), Z_div_plus_full by lia.
    rewrite Z.div_small by lia. exact IH.
Qed.

Lemma z2be_be2z l : bytes_ok l -> z2be (length l) (be2z l) = l.
Proof.
  intros H. unfold z2be, be2z. rewrite <- (rev_length l).
  rewrite z2le_le2z by (apply bytes_ok_rev, H). apply rev_involutive.
Qed.

Lemma z2le_0 n : z2le n 0 = repeat 0 n.
Proof. induction n; cbn; [reflexivity|]. f_equal. exact IHn. Qed.

Lemma repeat_snoc {A} (x : A) n : repeat x n ++ [x] = repeat x (S n).
Proof. induction n; cbn in *; congruence. Qed.

Lemma rev_repeat {A} (x : A) n : rev (repeat x n) = repeat x n.
Proof. induction n; [reflexivity|]. cbn [repeat rev]. rewrite IHn. apply repeat_snoc. Qed.

Lemma z2le_split a b z : 0 <= z -> z2le (a + b) z = z2le a z ++ z2le b (z / 256 ^ Z.of_nat a).
Proof.
  revert z; induction a; intros z Hz.
  - cbn [Nat.add z2le app]. change (256 ^ Z.of_nat 0) with 1. rewrite Z.div_1_r. reflexivity.
  - cbn [Nat.add z2le app]. f_equal. rewrite IHa by lia. f_equal. f_equal.
    rewrite Nat2Z.inj_succ, Z.pow_succ_r by lia.
    rewrite Z.div_div; try lia; apply Z.pow_pos_nonneg; lia.
Qed.

Lemma nbytes_bound z : 0 <= z -> z < 256 ^ Z.of_nat (nbytes z).
Proof.
  intros Hz. unfold nbytes. destruct (z <=? 0) eqn:E.
  - assert (z = 0) by lia. subst. reflexivity.
  - assert (Hp : 0 < z) by lia.
    rewrite Nat2Z.inj_succ, Z2Nat.id by (pose proof (Z.log2_nonneg z); lia).
    change 256 with (2 ^ 8). rewrite <- Z.pow_mul_r by (pose proof (Z.log2_nonneg z); lia).
    apply Z.log2_spec in Hp as [_ H2].
    eapply Z.lt_le_trans; [exact H2|]. apply Z.pow_le_mono_r; [lia|].
    pose proof (Z.log2_nonneg z). lia.
Qed.

Lemma nbytes_le z n : 0 <= z < 256 ^ Z.of_nat n -> (nbytes z <= n)%nat.
Proof.
  intros [Hz Hn]. unfold nbytes. destruct (z <=? 0) eqn:E; [lia|].
  assert (Hp : 0 < z) by lia.
  change 256 with (2 ^ 8) in Hn. rewrite <- Z.pow_mul_r in Hn by lia.
  apply Z.log2_lt_pow2 in Hn; [|lia].
  pose proof (Z.log2_nonneg z). lia.
Qed.

Lemma big_bytes_length z : length (big_bytes z) = nbytes z.
Proof. apply z2be_length. Qed.

Lemma big_bytes_ok z : bytes_ok (big_bytes z).
Proof. apply z2be_ok. Qed.

Lemma be2z_big_bytes z : 0 <= z -> be2z (big_bytes z) = z.
Proof.
  intros H. unfold big_bytes. rewrite be2z_z2be. apply Z.mod_small.
  split; [lia|]. apply nbytes_bound; lia.
Qed.

Lemma pad32_big_bytes z : 0 <= z < 2 ^ 256 -> pad32 (big_bytes z) = z2be 32 z.
Proof.
  intros [H0 H1]. unfold pad32. rewrite big_bytes_length.
  assert (L : (nbytes z <= 32)%nat).
  { apply nbytes_le. change (256 ^ Z.of_nat 32) with (2 ^ 256). lia. }
  unfold big_bytes, z2be.
  replace 32%nat with (nbytes z + (32 - nbytes z))%nat at 2 by lia.
  rewrite z2le_split by lia. rewrite rev_app_distr. f_equal.
  rewrite Z.div_small by (split; [lia|apply nbytes_bound; lia]).
  rewrite z2le_0, rev_repeat. reflexivity.
Qed.

Lemma pad32_length l : (length l <= 32)%nat -> length (pad32 l) = 32%nat.
Proof. intros. unfold pad32. rewrite app_length, repeat_length. lia. Qed.

Lemma pow256_32 : 256 ^ Z.of_nat 32 = 2 ^ 256.
Proof. reflexivity. Qed.

Lemma z2be_inj n x y : 0 <= x < 256 ^ Z.of_nat n -> 0 <= y < 256 ^ Z.of_nat n ->
  z2be n x = z2be n y -> x = y.
Proof.
  intros Hx Hy E. rewrite <- (Z.mod_small x (256 ^ Z.of_nat n)), <- (Z.mod_small y (256 ^ Z.of_nat n)) by assumption.
  rewrite <- !be2z_z2be, E. reflexivity.
Qed.

(** *** Modular inverse *)

Lemma egcd_inv fuel : forall n a r0 r1 s0 s1,
  0 < n -> (r0 - s0 * a) mod n = 0 -> (r1 - s1 * a) mod n = 0 ->
  let '(g, s) := egcd fuel r0 r1 s0 s1 in (g - s * a) mod n = 0.
Proof.
  induction fuel as [|f IH]; intros n a r0 r1 s0 s1 Hn H0 H1; cbn [egcd]; [exact H0|].
  destruct (r1 =? 0); [exact H0|].
  apply IH; [exact Hn|exact H1|].
  replace (r0 mod r1 - (s0 - r0 / r1 * s1) * a)
    with ((r0 - s0 * a) - r0 / r1 * (r1 - s1 * a)).
  - apply Z.mod_divide; [lia|]. apply Z.mod_divide in H0, H1; try lia.
    apply Z.divide_sub_r; [exact H0|]. apply Z.divide_mul_r. exact H1.
  -
    destruct (Z.eq_dec r1 0) as [->|Hr].
    + rewrite Zmod_0_r, Zdiv_0_r. ring.
    + rewrite (Z.mod_eq r0 r1) by exact Hr. ring.
Qed.


Lemma egcd_fst_gcd fuel : forall k r0 r1 s0 s1,
  0 <= r1 < r0 -> r0 < 2 ^ Z.of_nat k -> (2 * k < fuel)%nat ->
  fst (egcd fuel r0 r1 s0 s1) = Z.gcd r0 r1.
Proof.
  induction fuel as [fuel IH] using lt_wf_ind.
  intros k r0 r1 s0 s1 Hr Hk Hf.
  destruct fuel as [|f]; [lia|]. cbn [egcd].
  destruct (r1 =? 0) eqn:E.
  { assert (r1 = 0) by lia. subst. cbn. rewrite Z.gcd_0_r. lia. }
  destruct f as [|f].
  { assert (k = 0%nat) by lia. subst. cbn in Hk. lia. }
  cbn [egcd].
  assert (Hm : 0 <= r0 mod r1 < r1) by (apply Z.mod_pos_bound; lia).
  assert (G1 : Z.gcd r0 r1 = Z.gcd r1 (r0 mod r1)).
  { rewrite (Z.gcd_comm r1), Z.gcd_mod by lia. apply Z.gcd_comm. }
  destruct (r0 mod r1 =? 0) eqn:E2.
  { cbn. rewrite G1. replace (r0 mod r1) with 0 by lia. rewrite Z.gcd_0_r. lia. }
  destruct k as [|k]. { cbn in Hk. lia. }
  rewrite (IH f ltac:(lia) k).
  - rewrite G1. set (m := r0 mod r1) in *.
    rewrite (Z.gcd_comm m (r1 mod m)), Z.gcd_mod by lia. apply Z.gcd_comm.
  - set (m := r0 mod r1) in *. pose proof (Z.mod_pos_bound r1 m ltac:(lia)). lia.
  - assert (2 * (r0 mod r1) < r0 + 1).
    { pose proof (Z.div_mod r0 r1 ltac:(lia)).
      assert (1 <= r0 / r1) by (apply Z.div_le_lower_bound; lia).
      nia. }
    rewrite Nat2Z.inj_succ, Z.pow_succ_r in Hk by lia. lia.
  - lia.
Qed.

Lemma mod_inverse_some a n x : 1 < n -> mod_inverse a n = Some x ->
  0 <= x < n /\ (a * x) mod n = 1.
Proof.
  intros Hn. unfold mod_inverse.
  pose proof (egcd_inv (egcd_fuel n) n a n (a mod n) 0 1 ltac:(lia)) as H.
  destruct (egcd _ _ _ _ _) as [g s]. destruct (g =? 1) eqn:E; [|discriminate].
  intros [= <-]. split; [apply Z.mod_pos_bound; lia|].
  assert (g = 1) by lia. subst g.
  assert (D : (1 - s * a) mod n = 0).
  { apply H.
    - rewrite Z.mul_0_l, Z.sub_0_r. apply Z_mod_same_full.
    - rewrite Z.mul_1_l. rewrite Zminus_mod_idemp_l, Z.sub_diag. apply Zmod_0_l. }
  rewrite Zmult_mod_idemp_r. rewrite Z.mul_comm.
  apply Z.mod_divide in D; [|lia]. destruct D as [q Hq].
  replace (s * a) with (1 + (- q) * n) by lia.
  rewrite Z_mod_plus_full. apply Z.mod_small; lia.
Qed.

Lemma mod_inverse_complete a n : 1 < n -> Z.gcd a n = 1 ->
  exists x, mod_inverse a n = Some x.
Proof.
  intros Hn G. unfold mod_inverse.
  pose proof (egcd_fst_gcd (egcd_fuel n) (Z.to_nat (Z.log2 n + 1)) n (a mod n) 0 1) as H.
  destruct (egcd _ _ _ _ _) as [g s]. cbn [fst] in H.
  rewrite H.
  - rewrite (Z.gcd_comm n), Z.gcd_mod by lia. rewrite (Z.gcd_comm n a), G. cbn. eauto.
  - apply Z.mod_pos_bound; lia.
  - rewrite Z2Nat.id by (pose proof (Z.log2_nonneg n); lia).
    apply Z.log2_spec. lia.
  - unfold egcd_fuel. pose proof (Z.log2_nonneg n). lia.
Qed.

Lemma mod_inverse_prime a p : prime p -> a mod p <> 0 ->
  exists x, mod_inverse a p = Some x.
Proof.
  intros Hp Ha. assert (1 < p) by (destruct Hp; auto).
  apply mod_inverse_complete; [auto|].
  apply Zgcd_1_rel_prime. apply rel_prime_sym, prime_rel_prime; auto.
  intros D. apply Ha. apply Zdivide_mod, D.
Qed.

Lemma mod_inverse_none a p : prime p -> a mod p = 0 -> mod_inverse a p = None.
Proof.
  intros Hp Ha. assert (1 < p) by (destruct Hp; auto).
  destruct (mod_inverse a p) as [x|] eqn:E; [|reflexivity].
  apply mod_inverse_some in E as [_ E]; [|auto].
  rewrite Z.mul_mod, Ha in E by lia. rewrite Z.mul_0_l, Zmod_0_l in E. lia.
Qed.

Lemma mod_inv_unique a x y p : 1 < p -> 0 <= x < p -> 0 <= y < p ->
  (a * x) mod p = 1 -> (a * y) mod p = 1 -> x = y.
Proof.
  intros Hp Hx Hy Ex Ey.
  assert (E : (x * (a * y)) mod p = (y * (a * x)) mod p) by (f_equal; ring).
  rewrite (Z.mul_mod x), Ey, (Z.mul_mod y), Ex in E by lia.
  rewrite !Z.mul_1_r, !Zmod_mod, !Z.mod_small in E by lia. exact E.
Qed.

(** *** Modular powers *)

Lemma pow_mod_pos_spec b e m : 0 < m -> pow_mod_pos b e m = (b ^ Zpos e) mod m.
Proof.
  intros Hm. induction e as [e IH|e IH|]; cbn [pow_mod_pos].
  - rewrite IH. rewrite <- Zmult_mod, Zmult_mod_idemp_l.
    replace (Z.pos e~1) with (Z.pos e + Z.pos e + 1) by lia.
    rewrite !Z.pow_add_r, Z.pow_1_r by lia. reflexivity.
  - rewrite IH. rewrite <- Zmult_mod.
    replace (Z.pos e~0) with (Z.pos e + Z.pos e) by lia.
    rewrite Z.pow_add_r by lia. reflexivity.
  - rewrite Z.pow_1_r. reflexivity.
Qed.

Lemma pow_mod_spec b e m : 0 < m -> 0 <= e -> pow_mod b e m = (b ^ e) mod m.
Proof.
  intros Hm He. destruct e; cbn [pow_mod]; [reflexivity|apply pow_mod_pos_spec; auto|lia].
Qed.
