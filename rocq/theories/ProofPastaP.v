(** Package pasta, continued: the sponge of poseidon.go is Poseidon. *)
Require Import ZArith List Bool Lia Znumtheory Ring Field.
Require Import Verif.Base Verif.Fp Verif.EC Verif.Curves Verif.SpecECDSA Verif.SpecPasta.
Require Import Verif.ModelPastaCode Verif.ProofPastaF Verif.ModelPasta Verif.ProofPastaG Verif.ProofPastaH Verif.ProofPastaI.
Import ListNotations.
Open Scope Z_scope.
Add Field KFp : Kfp.
Local Notation F := (fp_of pp).

(** the constants of the code as field elements *)
Definition mina_rks : list (list (fp pp)) := map (map fe) round_keys.
Definition mina_mds : list (list (fp pp)) := map (map fe) mds_matrix.

Definition okpb (a : limbs) : bool := Nat.eqb (length a) 4 && forallb (fun d => (0 <=? d) && (d <? 2 ^ 64)) a && (lval a <? pp).
Lemma okpb_ok a : okpb a = true -> okp a.
Proof.
  unfold okpb. rewrite !andb_true_iff, Nat.eqb_eq, Z.ltb_lt, forallb_forall. intros ((H1 & H2) & H3).
  split; [split; [exact H1|] | exact H3]. apply Forall_forall. intros d Hd. specialize (H2 d Hd).
  apply andb_true_iff in H2 as [A B]. apply Z.leb_le in A. apply Z.ltb_lt in B. split; assumption.
Qed.
Definition reps : list limbs -> list (fp pp) -> Prop := Forall2 rep.
Lemma reps_fe l : Forall okp l -> reps l (map fe l).
Proof. induction 1; constructor; auto using rep_self. Qed.
Lemma reps_fe2 l : Forall (Forall okp) l -> Forall2 reps l (map (map fe) l).
Proof. induction 1; constructor; auto using reps_fe. Qed.
Lemma okpb2 l : forallb (forallb okpb) l = true -> Forall (Forall okp) l.
Proof.
  intros H. apply Forall_forall. intros r Hr. apply Forall_forall. intros a Ha.
  rewrite forallb_forall in H. specialize (H r Hr). rewrite forallb_forall in H. apply okpb_ok, H, Ha.
Qed.
Lemma round_keys_ok : Forall2 reps round_keys mina_rks.
Proof. apply reps_fe2, okpb2. vm_cast_no_check (@eq_refl bool true). Qed.
Lemma mds_ok : Forall2 reps mds_matrix mina_mds.
Proof. apply reps_fe2, okpb2. vm_cast_no_check (@eq_refl bool true). Qed.

Lemma FieldPow5_ok a u : rep a u -> rep (FieldPow a 5) (pow5 pp u).
Proof.
  intros Ha. change (FieldPow a 5) with (FpMul (FpSquare (FpSquare (FpMul (FpSquare FieldOne) a))) a).
  eapply rep_eq; [ProofPastaG.reps|].
  change (pow5 pp u) with (fpow u 5). change 5 with (2 + 2 + 1). rewrite !fpow_add, fpow_2, fpow_1 by lia. ring.
Qed.
Lemma add_keys_ok s u k w : reps s u -> reps k w -> reps (add_keys s k) (add_vec pp u w).
Proof.
  intros H. revert k w. unfold add_keys, add_vec. induction H as [|a v s u Ha H IH]; intros k w Hk; [constructor|].
  destruct Hk as [|b x k w Hb Hk]; cbn [combine map fst snd]; constructor; [apply rep_add; assumption|]. apply IH. exact Hk.
Qed.
Lemma map_pow5_ok s u : reps s u -> reps (map (fun x => FieldPow x 5) s) (map (pow5 pp) u).
Proof. induction 1; cbn [map]; constructor; auto using FieldPow5_ok. Qed.
Lemma dot_ok s u : reps s u -> forall row w acc a, reps row w -> rep acc a ->
  rep (fold_left (fun acc c => FpAdd acc (FpMul (fst c) (snd c))) (combine s row) acc) (fp_add a (dot pp u w)).
Proof.
  induction 1 as [|x v s u Hx H IH]; intros row w acc a Hr Ha.
  - cbn [combine fold_left]. eapply rep_eq; [exact Ha|]. unfold dot. cbn [combine fold_right]. ring.
  - destruct Hr as [|y z row w Hy Hr].
    + cbn [combine fold_left]. eapply rep_eq; [exact Ha|]. unfold dot. cbn [combine fold_right]. ring.
    + cbn [combine fold_left fst snd]. eapply rep_eq; [apply IH; [exact Hr | apply rep_add; [exact Ha | apply rep_mul; [exact Hx | exact Hy]]]|].
      unfold dot. cbn [combine fold_right fst snd]. ring.
Qed.
Lemma MatrixMul_ok s u m w : reps s u -> Forall2 reps m w -> reps (MatrixMul s m) (mix pp w u).
Proof.
  intros Hs. unfold MatrixMul, mix. induction 1 as [|r x m w Hr H IH]; cbn [map]; constructor; [|exact IH].
  eapply rep_eq; [apply (dot_ok s u Hs r x zero4 (F 0) Hr rep_zero)|]. ring.
Qed.
Definition round (u k : list (fp pp)) : list (fp pp) := mix pp mina_mds (map (pow5 pp) (add_vec pp u k)).
Definition mround (s k : list limbs) : list limbs := MatrixMul (map (fun x => FieldPow x 5) (add_keys s k)) mds_matrix.
Lemma round_ok s u k w : reps s u -> reps k w -> reps (mround s k) (round u w).
Proof. intros Hs Hk. apply MatrixMul_ok; [|exact mds_ok]. apply map_pow5_ok, add_keys_ok; assumption. Qed.
Lemma rounds_ok ks ws : Forall2 reps ks ws -> forall s u, reps s u -> reps (fold_left mround ks s) (fold_left round ws u).
Proof. induction 1; intros s u Hs; cbn [fold_left]; auto using round_ok. Qed.
Lemma permute_snoc l k u : permute pp mina_mds (l ++ [k]) u = add_vec pp (fold_left round l u) k.
Proof.
  revert u. induction l as [|x l IH]; intros u; [reflexivity|]. cbn [app fold_left]. rewrite <- IH.
  cbn [permute]. destruct (l ++ [k]) eqn:E; [destruct l; discriminate|]. reflexivity.
Qed.
Lemma fold_nth {A B} (f : A -> B -> A) d ks : forall s, fold_left (fun s r => f s (nth r ks d)) (seq 0 (length ks)) s = fold_left f ks s.
Proof.
  assert (G : forall ks' pre s, fold_left (fun s r => f s (nth r (pre ++ ks') d)) (seq (length pre) (length ks')) s = fold_left f ks' s).
  { induction ks' as [|k ks' IH]; intros pre s; [reflexivity|]. cbn [length seq fold_left].
    replace (nth (length pre) (pre ++ k :: ks') d) with k by (rewrite app_nth2, Nat.sub_diag by lia; reflexivity).
    specialize (IH (pre ++ [k]) (f s k)). rewrite <- app_assoc in IH. cbn [app] in IH. rewrite app_length in IH. cbn [length] in IH.
    rewrite Nat.add_1_r in IH. exact IH. }
  intros s. exact (G ks [] s).
Qed.
Definition keys63 : list (list limbs) := firstn 63 round_keys.
Definition key_last : list limbs := nth 63 round_keys [].
Lemma round_keys_split : round_keys = keys63 ++ [key_last]. Proof. reflexivity. Qed.
Lemma keys63_length : length keys63 = 63%nat. Proof. reflexivity. Qed.
Lemma mds_length : length mds_matrix = 3%nat. Proof. reflexivity. Qed.
Lemma key_last_length : length key_last = 3%nat. Proof. reflexivity. Qed.
Local Opaque round_keys mds_matrix.
Lemma fold_ext {A B} (f g : A -> B -> A) l : (forall x y, In y l -> f x y = g x y) -> forall a, fold_left f l a = fold_left g l a.
Proof.
  induction l as [|y l IH]; intros H a; [reflexivity|]. cbn [fold_left]. rewrite H by (left; reflexivity).
  apply IH. intros x z Hz. apply H. right. exact Hz.
Qed.
Lemma Perm_fold s : PerMutation3W s = add_keys (fold_left mround keys63 s) key_last.
Proof.
  unfold PerMutation3W. cbv zeta. apply (f_equal (fun t => add_keys t key_last)).
  rewrite <- (fold_nth mround [] keys63). rewrite keys63_length. apply fold_ext.
  intros x r Hr. apply in_seq in Hr. unfold mround.
  assert (E : nth r round_keys [] = nth r keys63 []); [|rewrite E; reflexivity].
  rewrite round_keys_split. apply app_nth1. rewrite keys63_length. lia.
Qed.
Lemma map_snoc_split {A B} (f : A -> B) l a : map f (l ++ [a]) = map f l ++ [f a].
Proof. apply map_app. Qed.
Lemma Perm_ok s u : reps s u -> reps (PerMutation3W s) (permute pp mina_mds mina_rks u).
Proof.
  intros Hs. rewrite Perm_fold. pose proof round_keys_ok as R. unfold mina_rks in *. rewrite round_keys_split in *.
  rewrite map_snoc_split in *. rewrite permute_snoc. apply Forall2_app_inv_l in R as (l1 & l2 & R1 & R2 & E).
  inversion R2 as [|x y l l' Rx Rl E1 E2]; subst. inversion Rl; subst. apply app_inj_tail in E as [E1 E2]. subst.
  apply add_keys_ok; [apply rounds_ok; assumption | exact Rx].
Qed.
Global Opaque PerMutation3W.

Lemma absorb1_full s x : absorb1 (s, 2%nat) x = absorb1 (PerMutation3W s, 0%nat) x.
Proof. reflexivity. Qed.
Lemma reps3 s u : reps s u -> length s = 3%nat -> exists s0 s1 s2 u0 u1 u2,
  s = [s0; s1; s2] /\ u = [u0; u1; u2] /\ rep s0 u0 /\ rep s1 u1 /\ rep s2 u2.
Proof.
  intros H L. destruct s as [|s0 [|s1 [|s2 [|? ?]]]]; try discriminate L.
  inversion H; subst. inversion H4; subst. inversion H6; subst. inversion H8; subst.
  do 6 eexists. split; [reflexivity|]. split; [reflexivity|]. auto.
Qed.

Lemma Perm_length s : length (PerMutation3W s) = 3%nat.
Proof.
  rewrite Perm_fold. unfold add_keys. rewrite map_length, combine_length.
  rewrite key_last_length.
  assert (L : length (fold_left mround keys63 s) = 3%nat); [|rewrite L; reflexivity].
  assert (G : forall ks s, ks <> [] -> length (fold_left mround ks s) = 3%nat).
  { clear s. induction ks as [|k ks IH]; intros s N; [congruence|]. cbn [fold_left]. destruct ks as [|k' ks].
    - cbn [fold_left]. unfold mround, MatrixMul. rewrite map_length. exact mds_length.
    - apply IH. discriminate. }
  apply G. intros E. pose proof keys63_length as K. rewrite E in K. discriminate K.
Qed.
Theorem Poseidon_ok l v : reps l v -> forall s u, reps s u -> length s = 3%nat ->
  reps (PerMutation3W (fst (PoseidonUpdate (s, 0%nat) l))) (sponge pp mina_rks mina_mds u v).
Proof.
  remember (length l) as n eqn:En. assert (Hn : (length l <= n)%nat) by lia. clear En. revert l v Hn.
  induction n as [|n IH]; intros l v Hn Hl s u Hs Ls.
  { destruct l; [|cbn in Hn; lia]. inversion Hl; subst. apply Perm_ok. exact Hs. }
  destruct Hl as [|x a l v Hx Hl]; [apply Perm_ok; exact Hs|].
  destruct (reps3 s u Hs Ls) as (s0 & s1 & s2 & u0 & u1 & u2 & -> & -> & H0 & H1 & H2).
  assert (P1 : reps [FpAdd s0 x; s1; s2] (add_vec pp [u0; u1; u2] [a; F 0; F 0])).
  { unfold add_vec. cbn [combine map fst snd]. constructor; [apply rep_add; assumption|].
    constructor; [eapply rep_eq; [exact H1 | ring]|]. constructor; [eapply rep_eq; [exact H2 | ring] | constructor]. }
  destruct Hl as [|y b l v Hy Hl]; [apply Perm_ok; exact P1|].
  assert (P2 : reps [FpAdd s0 x; FpAdd s1 y; s2] (add_vec pp [u0; u1; u2] [a; b; F 0])).
  { unfold add_vec. cbn [combine map fst snd]. constructor; [apply rep_add; assumption|].
    constructor; [apply rep_add; assumption|]. constructor; [eapply rep_eq; [exact H2 | ring] | constructor]. }
  destruct Hl as [|z c l v Hz Hl]; [apply Perm_ok; exact P2|].
  change (PoseidonUpdate ([s0; s1; s2], 0%nat) (x :: y :: z :: l))
    with (fold_left absorb1 l (absorb1 ([FpAdd s0 x; FpAdd s1 y; s2], 2%nat) z)).
  rewrite absorb1_full.
  change (fold_left absorb1 l (absorb1 (PerMutation3W [FpAdd s0 x; FpAdd s1 y; s2], 0%nat) z))
    with (PoseidonUpdate (PerMutation3W [FpAdd s0 x; FpAdd s1 y; s2], 0%nat) (z :: l)).
  change (sponge pp mina_rks mina_mds [u0; u1; u2] (a :: b :: c :: v))
    with (sponge pp mina_rks mina_mds (permute pp mina_mds mina_rks (add_vec pp [u0; u1; u2] [a; b; F 0])) (c :: v)).
  apply IH; [cbn [length] in *; lia | constructor; assumption | apply Perm_ok; exact P2 | apply Perm_length].
Qed.
Theorem PoseidonDigest_ok iv l : Forall okp iv -> length iv = 3%nat -> Forall okp l ->
  PoseidonDigest (PoseidonUpdate (iv, 0%nat) l) =
  z2be 32 (fval (poseidon pp mina_rks mina_mds (map fe iv) (map fe l))).
Proof.
  intros Hi Li Hl. pose proof (Poseidon_ok l _ (reps_fe _ Hl) iv _ (reps_fe _ Hi) Li) as P.
  unfold PoseidonDigest, poseidon.
  pose proof (Perm_length (fst (PoseidonUpdate (iv, 0%nat) l))) as L.
  destruct P as [|x a t v Hx _]; [discriminate L|]. cbn [nth].
  rewrite <- (proj2 Hx). apply field_to_be. apply Hx.
Qed.
