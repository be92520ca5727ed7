(** Property C96: the two ways in which package sha3 moves bytes into and out of the sponge. *)
From Coq Require Import ZArith List Bool Lia.
From Verif Require Import Base Words ModelBlake ModelSha3 ModelSha3X ProofSha3.
Import ListNotations.
Open Scope Z_scope.

(** The hash objects of the package, and the lengths of their blocks. *)
Definition hash_objects : list sponge :=
  [NewKeccak256; NewKeccak512; New224; New256; New384; New512; NewShake128; NewShake256].
(** the memory at the slice holds b; what lies behind it is arbitrary *)
Definition holds (m : memory) (b : bytes) : Prop := forall i, (i < length b)%nat -> m i = nth i b 0.

Lemma map_seq_firstn (m : memory) : forall n o (b : bytes), (o + n <= length b)%nat -> holds m b -> map m (seq o n) = firstn n (skipn o b).
Proof.
  induction n as [|n IH]; intros o b H Hm; [reflexivity|].
  cbn [seq map]. rewrite (IH (S o) b) by (assumption || lia). rewrite Hm by lia.
  assert (E : skipn o b = nth o b 0 :: skipn (S o) b).
  { clear - H. revert b H. induction o as [|o IH]; intros [|x b] H; cbn [length] in H; try lia; [reflexivity|]. cbn [nth]. cbn [skipn]. rewrite IH by lia. reflexivity. }
  rewrite E. reflexivity.
Qed.
Lemma xor_seq m b : holds m b -> forall l a, (forall i, In i l -> (8 * i + 8 <= length b)%nat) ->
  fold_left (xor_word m) l a = fold_left (fun a i => upd a i (Z.lxor (vget a i) (le2z (firstn 8 (skipn (8 * i) b))))) l a.
Proof.
  intros Hm. induction l as [|i l IH]; intros a H; [reflexivity|]. cbn [fold_left]. unfold xor_word at 2, bw.
  rewrite (map_seq_firstn m 8 (8 * i) b) by (assumption || (apply H; left; reflexivity)). apply IH. intros j Hj. apply H. right. exact Hj.
Qed.
Definition rates : list nat := [72; 104; 136; 144; 168]%nat.
Lemma rate_in d : In d hash_objects -> In (k_rate d) rates.
Proof. unfold hash_objects. cbn [In]. intros H. repeat destruct H as [<-|H]; cbn; tauto. Qed.
Lemma xorIn_ok m b a : holds m b -> In (length b) rates -> xorInUnaligned m (length b) a = Some (xor_in a b).
Proof.
  intros Hm Hr. unfold xorInUnaligned, xor_in.
  cbn [rates In] in Hr.
  destruct Hr as [Hr|[Hr|[Hr|[Hr|[Hr|[]]]]]]; rewrite <- Hr; cbv zeta;
    match goal with |- context [seq 0 (?r / 8)] => let v := eval cbv in (seq 0 (r / 8)%nat) in change (seq 0 (r / 8)) with v end;
    cbn [Nat.eqb Nat.leb]; rewrite <- ?fold_left_app; f_equal; apply (xor_seq m b Hm); rewrite <- Hr;
    cbn [app In]; intros i Hi; repeat destruct Hi as [<-|Hi]; lia.
Qed.
Lemma concat8 a : length (concat (map (z2le 8) a)) = (8 * length a)%nat.
Proof. induction a as [|x a IH]; [reflexivity|]. cbn [map concat length]. rewrite app_length, z2le_length, IH. lia. Qed.
Lemma copy_loop a : forall k i fuel b, length b = (8 * k)%nat -> (i + k <= length a)%nat -> (k <= fuel)%nat ->
  copyOut_loop fuel i a b = Some (concat (map (z2le 8) (firstn k (skipn i a)))).
Proof.
  induction k as [|k IH]; intros i fuel b Lb Hi Hf.
  { destruct b; [|discriminate]. destruct fuel; reflexivity. }
  destruct fuel as [|fuel]; [lia|]. cbn [copyOut_loop]. replace (Nat.leb 8 (length b)) with true by (symmetry; apply Nat.leb_le; lia).
  destruct (nth_error a i) as [x|] eqn:E; [|apply nth_error_None in E; lia].
  rewrite (IH (S i) fuel (skipn 8 b)) by (rewrite ?skipn_length; lia).
  assert (S : skipn i a = x :: skipn (S i) a).
  { clear - E. revert a E. induction i as [|i IH]; intros [|y a] E; try discriminate; [injection E as ->; reflexivity|]. cbn [nth_error] in E. cbn [skipn]. rewrite (IH a E). reflexivity. }
  rewrite S. reflexivity.
Qed.
Lemma firstn_concat8 a : forall k, firstn (8 * k) (concat (map (z2le 8) a)) = concat (map (z2le 8) (firstn k a)).
Proof.
  induction a as [|x a IH]; intros k; [rewrite !firstn_nil; reflexivity|]. destruct k as [|k]; [reflexivity|].
  cbn [firstn map concat]. rewrite firstn_app, z2le_length, firstn_all2 by (rewrite z2le_length; lia).
  replace (8 * S k - 8)%nat with (8 * k)%nat by lia. rewrite IH. reflexivity.
Qed.

(** For every hash object, whatever its state, a block of input is absorbed in the same way
    by the code with unsafe pointers and by the portable code, whatever lies behind the block
    in memory; a block of output is the same and fills the buffer. *)
Theorem C96_sha3_input : forall d m b a, In d hash_objects -> length b = k_rate d -> holds m b ->
  xorInUnaligned m (length b) a = Some (xor_in a b).
Proof. intros d m b a Hd Hb Hm. apply (xorIn_ok m b a Hm). rewrite Hb. exact (rate_in d Hd). Qed.
Print Assumptions C96_sha3_input.
Theorem C96_sha3_output : forall d a buf, In d hash_objects -> length buf = k_rate d -> length a = 25%nat ->
  copyOutUnaligned a buf = copy_out a (k_rate d) /\ copyOutGeneric a buf = Some (copy_out a (k_rate d)) /\
  length (copy_out a (k_rate d)) = k_rate d.
Proof.
  intros d a buf Hd Hb La. apply rate_in in Hd. rewrite <- Hb in *. clear Hb d.
  assert (K : exists k, length buf = (8 * k)%nat /\ (k <= 21)%nat).
  { cbn [rates In] in Hd. destruct Hd as [Hd|[Hd|[Hd|[Hd|[Hd|[]]]]]]; rewrite <- Hd;
      [exists 9%nat | exists 13%nat | exists 17%nat | exists 18%nat | exists 21%nat]; split; lia. }
  destruct K as (k & Lb & Hk). pose proof (concat8 a) as Lc. unfold copy_out. split; [|split].
  - unfold copyOutUnaligned. cbv zeta. rewrite firstn_length, Lc, La.
    replace (Nat.min (length buf) (Nat.min 168 (8 * 25))) with (length buf) by lia.
    rewrite skipn_all, app_nil_r, firstn_firstn. f_equal. lia.
  - unfold copyOutGeneric. rewrite (copy_loop a k 0) by lia. rewrite Lb, firstn_concat8. reflexivity.
  - rewrite firstn_length, Lc, La. lia.
Qed.
Print Assumptions C96_sha3_output.
(** The state always has 25 words (C35), and the blocks have the length of the rate: *)
Example C96_met : In New256 hash_objects /\ length (repeat 7 136) = k_rate New256 /\ length (k_a New256) = 25%nat /\
  holds (fun i => if Nat.ltb i 136 then 7 else 99) (repeat 7 136).
Proof.
  split; [cbn; tauto|]. split; [reflexivity|]. split; [reflexivity|]. intros i Hi. rewrite repeat_length in Hi.
  rewrite (proj2 (Nat.ltb_lt _ _) Hi). symmetry. rewrite (nth_indep _ 0 7) by (rewrite repeat_length; exact Hi). apply nth_repeat.
Qed.
