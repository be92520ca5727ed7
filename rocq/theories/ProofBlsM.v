(** hash_to_field, and the squares of F_p(i). *)
From Coq Require Import ZArith List Bool Lia Znumtheory Ring Field.
From Verif Require Import Base ModelApi ModelBlsF SpecBls ModelBls ProofBlsF ProofBlsE SpecBlsG BlsPrime ProofBlsH Fp BlsFp2 BlsFrob ProofBlsI Weier Group SpecBlsSig ProofBlsJ ProofBlsK BlsPrimes Mont63 BlsG2Gen ProofBlsL BlsExp SpecBlsHash SpecBlsMap PropsBlsApi.
Import ListNotations.
Local Open Scope Z_scope.
Add Field KFM1 : Kp1.
Add Field KFM2 : Kp2.

(** ** hash_to_field *)
Lemma be2z_zeros n b : be2z (repeat 0 n ++ b) = be2z b.
Proof. rewrite be2z_app. replace (be2z (repeat 0 n)) with 0; [ring|]. induction n as [|n IH]; [reflexivity|]. cbn [repeat]. rewrite be2z_cons, <- IH. ring. Qed.
Lemma zeros_ok n b : bytes_ok b -> bytes_ok (repeat 0 n ++ b).
Proof. intros O. apply Forall_app. split; [|exact O]. apply Forall_forall. intros x H. apply repeat_spec in H. subst. unfold byte_ok. lia. Qed.
Lemma p_32 : 256 ^ Z.of_nat 32 < p. Proof. Local Transparent bls_p. reflexivity. Local Opaque bls_p. Qed.
Lemma from32_rep F : exact_but_square F -> forall b, bytes_ok b -> length b = 32%nat ->
  exists x, fromBytes F (repeat 0 16 ++ b) = Some x /\ rep1 x (fp_of p (be2z b)).
Proof.
  intros HF b O L. pose proof (fromBytes_rep F HF (repeat 0 16 ++ b) (zeros_ok 16 b O)) as H.
  rewrite app_length, L in H. specialize (H eq_refl).
  destruct (be2z_bound _ O) as [B0 B1]. rewrite L in B1. pose proof p_32 as P32.
  destruct (fromBytes F (repeat 0 16 ++ b)) as [x|].
  - exists x. split; [reflexivity|]. destruct H as (a & R & E). apply (f_equal be2z) in E. rewrite enc1_val, be2z_zeros in E.
    rewrite <- E, fp_of_val. exact R.
  - exfalso. apply (H (fp_of p (be2z b))). unfold enc1. rewrite fval_of, Z.mod_small by lia.
    rewrite <- (be2z_zeros 16). replace 48%nat with (length (repeat 0 16 ++ b)) by (rewrite app_length, L; reflexivity). apply z2be_be2z, zeros_ok, O.
Qed.
Lemma f64F_rep : rep1 from64F (fp_of p (256 ^ 32)).
Proof.
  apply rep1_check.
  - split; [reflexivity|]. repeat (constructor; [vm_compute; split; (discriminate || reflexivity)|]). constructor.
  - vm_compute. reflexivity.
  - vm_compute. reflexivity.
Qed.
Lemma from64_rep F : exact_but_square F -> forall b, bytes_ok b -> length b = 64%nat ->
  exists x, from64Bytes F b = Some x /\ rep1 x (fp_of p (be2z b)).
Proof.
  intros HF b O L. unfold from64Bytes. rewrite L. cbn [Nat.eqb negb].
  destruct (from32_rep F HF (firstn 32 b)) as (e0 & -> & R0); [apply bytes_ok_firstn, O|rewrite firstn_length, L; reflexivity|].
  destruct (from32_rep F HF (skipn 32 b)) as (e1 & -> & R1); [apply bytes_ok_skipn, O|rewrite skipn_length, L; reflexivity|].
  eexists. split; [reflexivity|].
  replace (fp_of p (be2z b)) with (fp_add (fp_of p (be2z (skipn 32 b))) (fp_mul (fp_of p (be2z (firstn 32 b))) (fp_of p (256 ^ 32)))).
  - apply (add_rep F HF); [exact R1|]. apply (mul_rep F HF); [exact R0|exact f64F_rep].
  - rewrite <- fp_of_mul, <- fp_of_add. f_equal. rewrite <- (firstn_skipn 32 b) at 3. rewrite be2z_app, skipn_length, L. change (Z.of_nat (64 - 32)) with 32. ring.
Qed.
Lemma xmd_ok H : (forall x, bytes_ok (H x)) -> forall m t n, bytes_ok (expand_message_xmd H m t n).
Proof.
  intros HO m t n. unfold expand_message_xmd. apply bytes_ok_firstn.
  generalize (seq 0 (Z.to_nat ((n + 31) / 32))) as l. intros l. induction l as [|i l IH]; [constructor|].
  cbn [map concat]. apply Forall_app. split; [|exact IH]. destruct i; cbn [b_succ]; apply HO.
Qed.
Lemma xmd_len H : (forall x, length (H x) = 32%nat) -> forall m t n, 0 <= n -> length (expand_message_xmd H m t n) = Z.to_nat n.
Proof.
  intros HL m t n Hn. unfold expand_message_xmd. rewrite firstn_length.
  assert (E : forall l, length (concat (map (b_succ H m t n) l)) = (32 * length l)%nat).
  { induction l as [|i l IH]; [reflexivity|]. cbn [map concat length]. rewrite app_length, IH. destruct i; cbn [b_succ]; rewrite HL; lia. }
  rewrite E, seq_length. apply Nat.min_l. pose proof (Z.mod_pos_bound (n + 31) 32 ltac:(lia)). pose proof (Z.div_mod (n + 31) 32 ltac:(lia)).
  assert (0 <= (n + 31) / 32) by (apply Z.div_pos; lia). lia.
Qed.
Lemma all_some_spec {A} (l : list (option A)) (R : nat -> A -> Prop) (n : nat) : (forall i x, nth_error l i = Some x -> exists a, x = Some a /\ R (n + i)%nat a) ->
  exists r, all_some l = Some r /\ length r = length l /\ forall i a, nth_error r i = Some a -> R (n + i)%nat a.
Proof.
  revert n. induction l as [|x l IH]; intros n H.
  - exists []. repeat split; intros [|i] a E; discriminate.
  - destruct (H O x eq_refl) as (a & -> & Ra). destruct (IH (S n)) as (r & E & L & V).
    { intros i y Hy. destruct (H (S i) y Hy) as (b & -> & Rb). exists b. split; [reflexivity|]. replace (S n + i)%nat with (n + S i)%nat by lia. exact Rb. }
    exists (a :: r). cbn [all_some]. rewrite E. refine (conj eq_refl (conj _ _)); [cbn [length]; congruence|].
    intros [|i] b Hb; cbn [nth_error] in Hb; [injection Hb as <-; exact Ra|]. specialize (V i b Hb). replace (n + S i)%nat with (S n + i)%nat by lia. exact V.
Qed.
Lemma nth_error_seq n : forall s i x, nth_error (seq s n) i = Some x -> x = (s + i)%nat /\ (i < n)%nat.
Proof.
  induction n as [|n IH]; intros s [|i] x E; try discriminate; cbn [seq nth_error] in E.
  - injection E as <-. split; lia.
  - destruct (IH (S s) i x E) as [-> H]. split; lia.
Qed.
Theorem hash_field F H : exact_but_square F -> (forall x, bytes_ok (H x) /\ length (H x) = 32%nat) ->
  forall msg tag n, Z.of_nat (length tag) <= 255 -> (0 < n <= 127)%nat ->
  exists l, hashToFp H F msg tag n = Ret (Some l) /\ length l = n /\
    forall i x, nth_error l i = Some x -> rep1 x (field_element H msg tag n i).
Proof.
  intros HF HH msg tag n Ht Hn. unfold hashToFp. rewrite C52_expand by lia.
  set (rb := expand_message_xmd H msg tag (Z.of_nat n * 64)).
  assert (O : bytes_ok rb) by (apply xmd_ok; intros x; apply HH).
  assert (L : length rb = (n * 64)%nat) by (unfold rb; rewrite xmd_len; [lia|intros x; apply HH|lia]).
  destruct (all_some_spec (map (fun i => from64Bytes F (firstn 64 (skipn (i * 64) rb))) (seq 0 n))
    (fun i x => rep1 x (field_element H msg tag n i)) 0) as (l & -> & LL & V).
  - intros i x E. rewrite nth_error_map in E. destruct (nth_error (seq 0 n) i) as [j|] eqn:Ej; [|discriminate]. cbn [option_map] in E.
    apply nth_error_seq in Ej. destruct Ej as [-> Hi]. cbn [Nat.add] in *.
    destruct (from64_rep F HF (firstn 64 (skipn (i * 64) rb))) as (y & Ey & R); [apply bytes_ok_firstn, bytes_ok_skipn, O|rewrite firstn_length, skipn_length, L; lia|].
    exists y. split; [|exact R]. rewrite Ey in E. congruence.
  - exists l. refine (conj eq_refl (conj _ V)). rewrite LL, map_length, seq_length. reflexivity.
Qed.
