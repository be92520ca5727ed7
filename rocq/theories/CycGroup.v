(** A group of prime exponent n with fewer than n^2 elements is cyclic. *)
From Coq Require Import ZArith List Lia Znumtheory.
From Verif Require Import Group AllOrder.
Import ListNotations.
Local Open Scope Z_scope.

Section Cyc.
Variables (T : Type) (zero : T) (add : T -> T -> T) (neg : T -> T) (ok : T -> Prop).
Hypothesis HG : is_group T zero add neg ok.
Hypothesis dec : forall P Q : T, {P = Q} + {P <> Q}.
Variables (n B : Z) (enc : T -> Z).
Hypothesis Hn : prime n.
Hypothesis tors : forall P, ok P -> zmul zero add neg n P = zero.
Hypothesis enc_range : forall P, ok P -> 0 <= enc P < B.
Hypothesis enc_inj : forall P Q, ok P -> ok Q -> enc P = enc Q -> P = Q.
Hypothesis few : B < n * n.
Local Notation mul := (zmul zero add neg).
Variables G P : T.
Hypothesis okG : ok G.
Hypothesis okP : ok P.
Hypothesis G0 : G <> zero.
Lemma n_2 : 2 <= n. Proof using Hn. exact (prime_ge_2 n Hn). Qed.
Lemma move X Y X' Y' : ok X -> ok Y -> ok X' -> ok Y' -> add X Y = add X' Y' -> add Y (neg Y') = add X' (neg X).
Proof using HG.
  intros A C A' C' E. pose proof (g_neg _ _ _ _ _ HG _ A) as NA. pose proof (g_neg _ _ _ _ _ HG _ C') as NC.
  assert (H : add (neg X) (add (add X Y) (neg Y')) = add (neg X) (add (add X' Y') (neg Y'))) by (rewrite E; reflexivity).
  rewrite <- (g_assoc _ _ _ _ _ HG X Y (neg Y')), (g_assoc _ _ _ _ _ HG (neg X) X), (gneg_l _ _ _ _ _ HG X), (g_0_l _ _ _ _ _ HG) in H
    by (assumption || apply (g_add _ _ _ _ _ HG); assumption).
  rewrite H, <- (g_assoc _ _ _ _ _ HG X' Y' (neg Y')), (g_inv _ _ _ _ _ HG Y'), (gadd_0_r _ _ _ _ _ HG) by assumption.
  apply (g_comm _ _ _ _ _ HG); assumption.
Qed.
Lemma mult_of d k : rel_prime d n -> mul d P = mul k G -> exists s, 0 <= s < n /\ P = mul s G.
Proof using HG Hn tors okG okP.
  intros R E. destruct (rel_prime_bezout d n R) as [u v U]. exists ((u * k) mod n). split; [apply Z.mod_pos_bound; exact (Z.lt_le_trans 0 2 n eq_refl n_2)|].
  rewrite (zmul_mod _ _ _ _ _ HG n (u * k) G okG (tors G okG)), (zmul_mul _ _ _ _ _ HG u k G okG), <- E, <- (zmul_mul _ _ _ _ _ HG u d P okP).
  transitivity (mul 1 P); [symmetry; exact (zmul_1 _ _ _ _ _ HG P okP)|].
  rewrite <- U, (zmul_add _ _ _ _ _ HG (u * d) (v * n) P okP), (zmul_mul _ _ _ _ _ HG v n P okP), (tors P okP), (zmul_zero _ _ _ _ _ HG v).
  apply (gadd_0_r _ _ _ _ _ HG), (zmul_ok _ _ _ _ _ HG), okP.
Qed.
Theorem cyc_group : exists s, 0 <= s < n /\ P = mul s G.
Proof using HG dec enc_range enc_inj few Hn tors okG okP G0.
  pose proof n_2 as N2.
  destruct (in_dec dec P (map (fun i => mul (Z.of_nat i) G) (seq 0 (Z.to_nat n)))) as [I|I].
  { apply in_map_iff in I. destruct I as (k & E & Hk). apply in_seq in Hk. exists (Z.of_nat k). split; [lia | symmetry; exact E]. }
  assert (NO : forall s, 0 <= s < n -> P <> mul s G).
  { intros s Hs E. apply I. apply in_map_iff. exists (Z.to_nat s). rewrite Z2Nat.id by lia. split; [symmetry; exact E|]. apply in_seq. lia. }
  exfalso. set (F := fun i => add (mul (i mod n) G) (mul (i / n) P)).
  assert (OK : forall k Q, ok Q -> ok (mul k Q)) by exact (zmul_ok _ _ _ _ _ HG).
  assert (OF : forall i, ok (F i)) by (intros i; apply (g_add _ _ _ _ _ HG); apply OK; assumption).
  assert (L : n * n <= B).
  { apply (pigeon (fun i => enc (F i))).
    - nia.
    - pose proof (enc_range G okG). lia.
    - intros i _. apply enc_range, OF.
    - intros i j Hi Hj E. apply enc_inj in E; [|apply OF..]. unfold F in E.
      pose proof (Z.mod_pos_bound i n ltac:(lia)) as Ri. pose proof (Z.mod_pos_bound j n ltac:(lia)) as Rj.
      pose proof (Z.div_mod i n ltac:(lia)) as Di. pose proof (Z.div_mod j n ltac:(lia)) as Dj.
      assert (Qi : 0 <= i / n < n) by (split; [apply Z.div_pos; lia | apply Z.div_lt_upper_bound; lia]).
      assert (Qj : 0 <= j / n < n) by (split; [apply Z.div_pos; lia | apply Z.div_lt_upper_bound; lia]).
      set (a := i mod n) in *. set (b := i / n) in *. set (a' := j mod n) in *. set (b' := j / n) in *. clearbody a b a' b'.
      destruct (Z.eq_dec b b') as [->|Nb].
      + rewrite !(g_comm _ _ _ _ _ HG _ (mul b' P)) in E by (apply OK; assumption).
        apply (gcancel _ _ _ _ _ HG) in E; [|apply OK; assumption..].
        apply (zmul_inj _ _ _ _ _ HG n a a' G okG Hn (tors G okG) G0) in E. rewrite !Z.mod_small in E by lia. lia.
      + exfalso. apply move in E; [|apply OK; assumption..].
        rewrite <- !(zmul_sub _ _ _ _ _ HG) in E by assumption.
        destruct (mult_of (b - b') (a' - a)) as (s & Hs & Es); [|exact E|exact (NO s Hs Es)].
        apply rel_prime_sym, prime_rel_prime; [exact Hn|]. intros D. apply Zdivide_bounds in D; lia. }
  lia.
Qed.
End Cyc.
