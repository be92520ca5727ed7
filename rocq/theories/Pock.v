(** Pocklington primality certificates.  Mathematics only. *)
Require Import ZArith List Lia Znumtheory Zpow_facts.
Require Import Verif.Base Verif.Fp Verif.Mont63.
Import ListNotations.
Open Scope Z_scope.

(** ** Small primes by trial division *)

Fixpoint no_div (fuel : nat) (d n : Z) : bool :=
  if n <? d * d then true
  else match fuel with
       | O => false
       | S f => if n mod d =? 0 then false else no_div f (d + 1) n
       end.

Definition small_prime (n : Z) : bool := (1 <? n) && no_div (Z.to_nat (Z.sqrt n)) 2 n.

Lemma no_div_spec fuel : forall d n, 2 <= d -> no_div fuel d n = true ->
  forall k, d <= k -> k * k <= n -> ~ (k | n).
Proof.
  induction fuel as [|f IH]; intros d n Hd; cbn [no_div]; destruct (n <? d * d) eqn:E;
    try discriminate.
  - intros _ k Hk Hkn. nia.
  - intros _ k Hk Hkn. nia.
  - destruct (n mod d =? 0) eqn:E2; [discriminate|]. intros H k Hk Hkn Hdiv.
    destruct (Z.eq_dec k d) as [->|Hne].
    + apply Zdivide_mod in Hdiv. lia.
    + apply (IH (d + 1) n ltac:(lia) H k); auto. lia.
Qed.

Lemma has_prime_divisor n : 1 < n -> exists p, prime p /\ (p | n).
Proof.
  intros Hn. assert (H0 : 0 <= n) by lia. revert n H0 Hn.
  apply (Zlt_0_ind (fun n => 1 < n -> exists p, prime p /\ (p | n))).
  intros n IH H0 Hn. destruct (prime_dec n) as [P|P].
  - exists n. split; [exact P|exists 1; lia].
  - apply not_prime_divide in P; [|exact Hn]. destruct P as (d & Hd & D).
    destruct (IH d ltac:(lia) ltac:(lia)) as (p & Pp & Dp).
    exists p. split; [exact Pp|]. eapply Z.divide_trans; eauto.
Qed.

Lemma prime_by_divisors n : 1 < n ->
  (forall p, prime p -> (p | n) -> n < p * p) -> prime n.
Proof.
  intros Hn H. destruct (prime_dec n) as [P|P]; [exact P|exfalso].
  apply not_prime_divide in P; [|exact Hn]. destruct P as (d & Hd & D).
  destruct D as [e He].
  assert (He1 : 1 < e).
  { destruct (Z_lt_le_dec 1 e) as [|L]; [assumption|exfalso].
    assert (e * d <= 1 * d) by (apply Z.mul_le_mono_nonneg_r; lia). lia. }
  destruct (has_prime_divisor d) as (p & Pp & Dp); [lia|].
  destruct (has_prime_divisor e) as (q & Pq & Dq); [lia|].
  assert (n < p * p) by (apply H; auto; apply Z.divide_trans with d; auto; exists e; lia).
  assert (n < q * q) by (apply H; auto; apply Z.divide_trans with e; auto; exists d; lia).
  apply Z.divide_pos_le in Dp; [|lia]. apply Z.divide_pos_le in Dq; [|lia].
  destruct Pp as [Hp1 _], Pq as [Hq1 _].
  assert (q * p <= e * d) by (apply Z.mul_le_mono_nonneg; lia).
  destruct (Z_le_gt_dec p q).
  - assert (p * p <= q * p) by (apply Z.mul_le_mono_nonneg_r; lia). lia.
  - assert (q * q <= q * p) by (apply Z.mul_le_mono_nonneg_l; lia). lia.
Qed.

Lemma small_prime_ok n : small_prime n = true -> prime n.
Proof.
  unfold small_prime. rewrite Bool.andb_true_iff. intros [H1 H2].
  apply prime_by_divisors; [lia|]. intros p Pp Dp.
  destruct (Z_lt_le_dec n (p * p)) as [|L]; [assumption|exfalso].
  destruct Pp as [Hp _].
  eapply (no_div_spec _ 2 n ltac:(lia) H2 p); eauto. lia.
Qed.

(** ** Orders modulo a prime *)

Section Order.
Variables (p b : Z).
Hypothesis Hp : 1 < p.
Definition one (n : Z) : Prop := b ^ n mod p = 1.

Lemma one_mod x y : 0 <= x -> 0 < y -> one x -> one y -> one (x mod y).
Proof.
  unfold one. intros Hx Hy Ex Ey.
  rewrite (Z.div_mod x y) in Ex by lia.
  assert (0 <= x / y) by (apply Z.div_pos; lia).
  pose proof (Z.mod_pos_bound x y Hy).
  rewrite Z.pow_add_r, Z.pow_mul_r in Ex by lia.
  rewrite Z.mul_mod, <- pow_mod_mod, Ey, Z.pow_1_l, (Z.mod_small 1) in Ex by lia.
  rewrite Z.mul_1_l, Zmod_mod in Ex. exact Ex.
Qed.

Lemma one_gcd y : 0 <= y -> forall x, 0 <= x -> one x -> one y -> one (Z.gcd x y).
Proof.
  intros Hy. pattern y. revert y Hy. apply Zlt_0_ind. intros y IH Hy x Hx Ex Ey.
  destruct (Z.eq_dec y 0) as [->|Hy0].
  - rewrite Z.gcd_0_r, Z.abs_eq by lia. exact Ex.
  - pose proof (Z.mod_pos_bound x y ltac:(lia)).
    rewrite Z.gcd_comm, <- Z.gcd_mod, Z.gcd_comm by lia.
    apply IH; auto; try lia. apply one_mod; auto; lia.
Qed.

Lemma order_prime_power q e k : prime q -> 0 < e -> 0 <= k ->
  one (q ^ e) -> ~ one (q ^ (e - 1)) -> one k -> (q ^ e | k).
Proof.
  intros Hq He Hk H1 H2 H3.
  assert (Hq1 : 1 < q) by (destruct Hq; auto).
  assert (Hqe : 0 < q ^ e) by (apply Z.pow_pos_nonneg; lia).
  pose proof (one_gcd (q ^ e) ltac:(lia) k Hk H3 H1) as Hg.
  set (g := Z.gcd k (q ^ e)) in *.
  assert (Hgk : (g | k)) by apply Z.gcd_divide_l.
  destruct (Z.gcd_divide_r k (q ^ e)) as [t Ht]. fold g in Ht.
  assert (Hg0 : 0 <= g) by apply Z.gcd_nonneg.
  assert (Ht0 : 0 < t) by nia.
  destruct (Z.eq_dec t 1) as [->|Ht1].
  - rewrite Ht, Z.mul_1_l. exact Hgk.
  - exfalso. apply H2.
    assert (Dq : (q | t)).
    { destruct (Zdivide_dec q t) as [D|D]; [exact D|exfalso].
      assert (R : rel_prime (q ^ e) t).
      { apply rel_prime_sym. apply rel_prime_Zpower_r; [lia|].
        apply rel_prime_sym, prime_rel_prime; auto. }
      apply Zgcd_1_rel_prime in R.
      assert (D2 : (t | Z.gcd (q ^ e) t)).
      { apply Z.gcd_greatest; [exists g; lia|apply Z.divide_refl]. }
      rewrite R in D2. apply Z.divide_pos_le in D2; lia. }
    destruct Dq as [t' Ht'].
    assert (E : q ^ (e - 1) = g * t').
    { replace e with ((e - 1) + 1) in Ht by lia.
      rewrite Z.pow_add_r, Z.pow_1_r in Ht by lia. nia. }
    assert (0 <= t') by nia.
    unfold one. rewrite E, Z.pow_mul_r by lia.
    rewrite <- pow_mod_mod by lia. unfold one in Hg. rewrite Hg.
    rewrite Z.pow_1_l by lia. apply Z.mod_small; lia.
Qed.
End Order.

(** ** The criterion *)

Lemma rel_prime_mul_divide a b n : rel_prime a b -> (a | n) -> (b | n) -> (a * b | n).
Proof.
  intros R [x Hx] D.
  assert (D2 : (b | x)).
  { apply Gauss with a; [|apply rel_prime_sym; exact R]. rewrite Z.mul_comm, <- Hx. exact D. }
  destruct D2 as [y Hy]. exists y. lia.
Qed.

Definition pock_item (c : mctx) (q e a F : Z) : bool :=
  let n := mc_p c in
  (0 <? e) && ((n - 1) mod (q ^ e) =? 0) && (Z.gcd F (q ^ e) =? 1)
  && match c_powmod c a (Z.to_pos (n - 1)) with Some v => v =? 1 | None => false end
  && match c_powmod c a (Z.to_pos ((n - 1) / q)) with
     | Some v => Z.gcd (v - 1) n =? 1
     | None => false
     end.

Fixpoint pock_check (c : mctx) (l : list (Z * Z * Z)) (F : Z) : bool :=
  match l with
  | [] => mc_p c <? (F + 1) * (F + 1)
  | (q, e, a) :: r => pock_item c q e a F && pock_check c r (F * q ^ e)
  end.

Lemma pock_item_spec c q e a F p : mctx_ok c = true -> prime q -> pock_item c q e a F = true ->
  prime p -> (p | mc_p c) -> (q ^ e | p - 1) /\ rel_prime F (q ^ e) /\ 0 < q ^ e.
Proof.
  intros Hok Hq H Pp Dp. unfold pock_item in H. set (n := mc_p c) in *.
  destruct (ctx_facts c Hok) as (Hn & _). fold n in Hn.
  assert (Hq1 : 1 < q) by (destruct Hq; auto).
  rewrite !Bool.andb_true_iff in H. destruct H as ((((He & Hd) & Hg) & H1) & H2).
  assert (He' : 0 < e) by lia.
  assert (Hqe : 0 < q ^ e) by (apply Z.pow_pos_nonneg; lia).
  split; [|split; [apply Zgcd_1_rel_prime; lia|exact Hqe]].
  destruct (c_powmod c a (Z.to_pos (n - 1))) as [v1|] eqn:E1; [|discriminate].
  destruct (c_powmod c a (Z.to_pos ((n - 1) / q))) as [v2|] eqn:E2; [|discriminate].
  apply c_powmod_spec in E1, E2; auto. fold n in E1, E2.
  apply Z.eqb_eq in Hd, H1, H2. subst v1.
  apply Zmod_divide in Hd; [|lia]. destruct Hd as [m Hm].
  assert (Hm0 : 0 < m).
  { apply (Z.mul_pos_cancel_r m (q ^ e)); [exact Hqe|]. rewrite <- Hm. lia. }
  assert (Eq : (n - 1) / q = q ^ (e - 1) * m).
  { rewrite Hm. replace e with ((e - 1) + 1) at 1 by lia.
    rewrite Z.pow_add_r, Z.pow_1_r by lia.
    replace (m * (q ^ (e - 1) * q)) with (q ^ (e - 1) * m * q) by ring.
    apply Z.div_mul. lia. }
  assert (Hq2 : 0 < q ^ (e - 1)) by (apply Z.pow_pos_nonneg; lia).
  assert (HP1 : 1 < p) by (destruct Pp; auto).
  destruct Dp as [w Hw].
  assert (M : forall x, x mod p = (x mod n) mod p).
  { intros x. apply Zmod_div_mod; [clear -HP1; lia|clear -Hn; lia|]. exists w. exact Hw. }
  assert (N1 : 0 < n - 1) by (clear -Hn; lia).
  assert (Hm1 : 0 <= m) by (clear -Hm0; lia).
  assert (Hqe1 : 0 <= q ^ e) by (clear -Hqe; lia).
  assert (Hqe2 : 0 <= q ^ (e - 1)) by (clear -Hq2; lia).
  assert (HP0 : 0 < p) by (clear -HP1; lia).
  assert (HP2 : 1 mod p = 1) by (apply Z.mod_small; clear -HP1; lia).
  rewrite Z2Pos.id in H1 by exact N1.
  rewrite Z2Pos.id in E2 by (rewrite Eq; apply Z.mul_pos_pos; assumption).
  apply (order_prime_power p (a ^ m) HP1 q e (p - 1) Hq He' ltac:(clear -HP1; lia)).
  - unfold one. rewrite <- Z.pow_mul_r by assumption. rewrite <- Hm, M, H1. exact HP2.
  - unfold one. rewrite <- Z.pow_mul_r by assumption. rewrite (Z.mul_comm m), <- Eq, M, E2.
    intros E3.
    assert (D : (p | Z.gcd (v2 - 1) n)).
    { apply Z.gcd_greatest; [|exists w; exact Hw].
      apply Zmod_divide; [clear -HP1; lia|].
      rewrite Zminus_mod, E3, HP2. reflexivity. }
    rewrite H2 in D. apply Z.divide_pos_le in D; clear -D HP1; lia.
  - unfold one. apply fermat; [exact Pp|].
    intros E0.
    assert (Z0 : (a ^ (n - 1)) mod p = 0).
    { rewrite Hm, Z.pow_mul_r by assumption.
      rewrite <- pow_mod_mod by assumption.
      rewrite E0, Z.pow_0_l by exact Hqe. apply Zmod_0_l. }
    rewrite M, H1, HP2 in Z0. discriminate.
Qed.

Theorem pocklington c l : mctx_ok c = true -> Forall (fun t => prime (fst (fst t))) l ->
  pock_check c l 1 = true -> prime (mc_p c).
Proof.
  intros Hok Hl Hc. destruct (ctx_facts c Hok) as (Hn & _).
  apply prime_by_divisors; [exact Hn|]. intros p Pp Dp.
  assert (G : forall l F, Forall (fun t => prime (fst (fst t))) l -> 0 < F -> (F | p - 1) ->
              pock_check c l F = true -> mc_p c < p * p).
  { clear l Hl Hc. assert (1 < p) by (destruct Pp; auto).
    induction l as [|((q, e), a) l IH]; intros F Hl HF DF Hc; cbn [pock_check] in Hc.
    - apply Z.divide_pos_le in DF; [|lia]. nia.
    - apply Bool.andb_true_iff in Hc as [H1 H2]. inversion Hl; subst.
      destruct (pock_item_spec c q e a F p Hok ltac:(auto) H1 Pp Dp) as (D & R & P).
      apply (IH (F * q ^ e)); auto; [apply Z.mul_pos_pos; assumption|].
      apply rel_prime_mul_divide; auto. }
  apply (G l 1); auto; [lia|]. exists (p - 1). lia.
Qed.
