(** The values s that satisfy the ECDSA equation for one key, hash and r. *)
From Coq Require Import ZArith List Lia Znumtheory.
From Verif Require Import Base Fp Weier Group EC AllOrder EcCyc EcFour SpecECDSA.
Import ListNotations.
Local Open Scope Z_scope.

Lemma rel_list {A B} (rel : A -> B -> Prop) (four : list B) (l : list A) :
  (forall a a' b, rel a b -> rel a' b -> a = a') -> NoDup l -> (forall a, In a l -> exists b, rel a b /\ In b four) -> (length l <= length four)%nat.
Proof.
  intros Inj N H.
  assert (X : exists l', length l' = length l /\ NoDup l' /\ incl l' four /\ (forall b, In b l' -> exists a, In a l /\ rel a b)).
  { induction N as [|a l Na N IH]; [exists []; repeat split; [constructor | intros b [] | intros b []]|].
    destruct IH as (l' & L & N' & I & R); [intros x Hx; apply H; right; exact Hx|]. destruct (H a (or_introl eq_refl)) as (b & Rb & Ib).
    exists (b :: l'). split; [cbn; rewrite L; reflexivity|]. split; [|split].
    - constructor; [|exact N']. intros Hb. destruct (R b Hb) as (a' & Ha' & Ra'). apply Na. rewrite (Inj a a' b Rb Ra'). exact Ha'.
    - intros y [<-|Hy]; [exact Ib | exact (I y Hy)].
    - intros y [<-|Hy]; [exists a; split; [left; reflexivity | exact Rb]|]. destruct (R y Hy) as (a' & Ha' & Ra'). exists a'. split; [right; exact Ha' | exact Ra']. }
  destruct X as (l' & <- & N' & I & _). exact (NoDup_incl_length N' I).
Qed.

Section Alter.
Variable c : wcurve.
Hypothesis Hv : w_valid c.
Hypothesis Hord : forall P, w_on c P -> w_mul c (w_n c) P = pinf c.
Hypothesis Hn : 2 < w_n c.
Hypothesis Hp : w_p c < 2 * w_n c.
Local Notation n := (w_n c).
Local Notation HG := (HWc c Hv).
Local Notation Rw e r w Q := (w_add c (w_mul c ((e * w) mod n) (w_G c)) (w_mul c ((r * w) mod n) Q)).
Lemma on_mul k P : w_on c P -> w_on c (w_mul c k P).
Proof using Hv. exact (fun HP => zmul_ok _ _ _ _ _ HG k P HP). Qed.
Lemma w_mod k P : w_on c P -> w_mul c (k mod n) P = w_mul c k P.
Proof using Hv Hord. intros HP. exact (zmul_mod _ _ _ _ _ HG n k P HP (Hord P HP)). Qed.
Lemma R_scale e r w Q : w_on c Q -> Rw e r w Q = w_mul c w (w_add c (w_mul c e (w_G c)) (w_mul c r Q)).
Proof using Hv Hord.
  intros HQ. pose proof (wv_Gon c Hv) as GO. rewrite !w_mod by assumption. pose proof (on_mul e _ GO) as O1. pose proof (on_mul r _ HQ) as O2.
  rewrite (Z.mul_comm e), (Z.mul_comm r). unfold w_mul in *.
  rewrite (zmul_padd _ _ _ _ _ HG w _ _ O1 O2), (zmul_mul _ _ _ _ _ HG w e _ GO), (zmul_mul _ _ _ _ _ HG w r _ HQ). reflexivity.
Qed.
Lemma on_T e r Q : w_on c Q -> w_on c (w_add c (w_mul c e (w_G c)) (w_mul c r Q)).
Proof using Hv. intros HQ. exact (g_add _ _ _ _ _ HG _ _ (on_mul e _ (wv_Gon c Hv)) (on_mul r _ HQ)). Qed.
Theorem negated Q e r s : w_on c Q -> ecdsa_valid c Q e r s -> ecdsa_valid c Q e r (n - s).
Proof using Hv Hord Hn.
  intros HQ (Hr & Hs & w & Hw & V). split; [exact Hr|]. split; [lia|]. exists (- w). split.
  - replace ((n - s) * - w) with (s * w + (- w) * n) by ring. rewrite Z.mod_add by lia. exact Hw.
  - cbv zeta in *. rewrite R_scale in V |- * by exact HQ. pose proof (on_T e r Q HQ) as OT. destruct V as [NI X].
    assert (E : w_mul c (- w) (w_add c (w_mul c e (w_G c)) (w_mul c r Q)) = w_neg c (w_mul c w (w_add c (w_mul c e (w_G c)) (w_mul c r Q)))) by exact (zmul_neg _ _ _ _ _ HG w _ OT).
    rewrite E, px_neg. split; [|exact X]. intros Z0. apply NI. rewrite <- (gneg_neg _ _ _ _ _ HG _ (on_mul w _ OT)), Z0. apply (gneg_zero _ _ _ _ _ HG).
Qed.
Theorem four_s Q e r (l : list Z) : w_on c Q -> NoDup l -> (forall s, In s l -> ecdsa_valid c Q e r s) -> (length l <= 4)%nat.
Proof using Hv Hord Hn Hp.
  intros HQ N H. set (T := w_add c (w_mul c e (w_G c)) (w_mul c r Q)). pose proof (on_T e r Q HQ) as OT. fold T in OT.
  apply (rel_list (fun s z => 0 < s < n /\ exists w, (s * w) mod n = 1 /\ w_mul c w T <> pinf c /\ z = AllOrder.enc c (w_mul c w T))
           [2 * r; 2 * r + 1; 2 * (r + n); 2 * (r + n) + 1]); [| exact N |].
  - intros s s' z (Hs & w & Hw & NI & ->) (Hs' & w' & Hw' & NI' & E).
    apply (AllOrder.enc_inj c Hv (no_root_c c Hv Hord Hn)) in E; [|apply on_mul, OT..].
    assert (NT : T <> pinf c) by (intros ET; apply NI; rewrite ET; apply (zmul_zero _ _ _ _ _ HG)).
    assert (W : w mod n = w' mod n) by exact (zmul_inj _ _ _ _ _ HG n w w' T OT (wv_nprime c Hv) (Hord T OT) NT E).
    assert (Hw2 : (w * s') mod n = 1) by (rewrite <- Z.mul_mod_idemp_l, W, Z.mul_mod_idemp_l, Z.mul_comm by lia; exact Hw').
    rewrite Z.mul_comm in Hw. pose proof (inv_unique c Hn w s s' Hw Hw2) as S. rewrite !Z.mod_small in S by lia. exact S.
  - intros s Is. destruct (H s Is) as (Hr & Hs & w & Hw & V). cbv zeta in V. rewrite R_scale in V by exact HQ. fold T in V. destruct V as [NI X].
    exists (AllOrder.enc c (w_mul c w T)). split; [split; [exact Hs|]; exists w; repeat split; assumption|].
    destruct (w_mul c w T) as [|x y]; [contradiction NI; reflexivity|]. cbn [px] in X. cbn [AllOrder.enc].
    pose proof (fval_bound (w_p c) x ltac:(pose proof (AllOrder.p_pos c Hv); lia)) as B.
    pose proof (Z.mod_pos_bound (fval y) 2 eq_refl) as Y. pose proof (Z.div_mod (fval x) n ltac:(lia)) as D. rewrite X in D.
    assert (Qx : fval x / n = 0 \/ fval x / n = 1).
    { assert (0 <= fval x / n < 2) by (split; [apply Z.div_pos; lia | apply Z.div_lt_upper_bound; lia]). lia. }
    cbn [In]. destruct Qx as [q|q]; rewrite q in D; lia.
Qed.
End Alter.
