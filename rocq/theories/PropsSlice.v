(** Property C43: Verify leaves its inputs unchanged (identifier BLS AUG, where
    the code appends to the caller's public key). *)
From Coq Require Import ZArith List Bool Lia.
From Verif Require Import Base ModelECDSA ModelApi ModelSlice.
Import ListNotations.
Local Open Scope Z_scope.

(** Public key, signature and message next to each other in one buffer, the
    public key sliced as buf[:48]: Verify overwrites the signature with the message
    and answers for that instead. *)
Theorem C43_inputs_unchanged_refuted : forall B ID P S M,
  length P = 48%nat -> length S = 96%nat -> length M = 96%nat ->
  VerifyAUG_mem B (P ++ S ++ M) (mkSlice 0 48 240) (mkSlice 144 96 96) (mkSlice 48 96 192)
  = (Verify B P ID M M ECC_CURVE_BLS_AUG, P ++ M ++ M).
Proof.
  intros B ID P S M HP HS HM.
  change (Verify B P ID M M ECC_CURVE_BLS_AUG) with (verify_ret (sp_verify (bk_bls B) P (AUG_SCHEME_DST ++ P ++ M) M)).
  unfold VerifyAUG_mem.
  assert (FA : forall n (X Y : bytes), length X = n -> firstn n (X ++ Y) = X).
  { intros n X Y E. rewrite firstn_app, E, Nat.sub_diag, firstn_O, app_nil_r, <- E. apply firstn_all. }
  assert (SA : forall n (X Y : bytes), length X = n -> skipn n (X ++ Y) = Y).
  { intros n X Y E. rewrite skipn_app, E, Nat.sub_diag, skipn_O, <- E, skipn_all. reflexivity. }
  assert (LPS : length (P ++ S) = 144%nat) by (rewrite app_length; lia).
  assert (RM : sread (P ++ S ++ M) (mkSlice 144 96 96) = M).
  { unfold sread, s_len, s_off. rewrite app_assoc, (SA _ _ _ LPS). rewrite <- HM. apply firstn_all. }
  rewrite RM.
  assert (RP : forall X, sread (P ++ X) (mkSlice 0 48 240) = P).
  { intros X. unfold sread, s_len, s_off. rewrite skipn_O. apply FA, HP. }
  assert (RS : forall X, sread (P ++ M ++ X) (mkSlice 48 96 192) = M).
  { intros X. unfold sread, s_len, s_off. rewrite (SA _ _ _ HP). apply FA, HM. }
  unfold append_to. cbn [s_len s_cap s_off]. rewrite HM.
  change (Nat.leb (48 + 96) 240) with true. cbv iota.
  assert (W : swrite (P ++ S ++ M) (0 + 48) M = P ++ M ++ M).
  { unfold swrite. rewrite HM. change (0 + 48)%nat with 48%nat. change (48 + 96)%nat with 144%nat.
    rewrite (FA _ _ _ HP), (app_assoc P S M), (SA _ _ _ LPS). reflexivity. }
  rewrite W, !RP, RS. reflexivity.
Qed.
Print Assumptions C43_inputs_unchanged_refuted.
Example C43_buffer : length (repeat 1 48) = 48%nat /\ length (repeat 2 96) = 96%nat /\ length (repeat 3 96) = 96%nat /\
  repeat 1 48 ++ repeat 3 96 ++ repeat 3 96 <> repeat 1 48 ++ repeat 2 96 ++ repeat 3 96.
Proof. repeat split; discriminate. Qed.

(** With no room behind the public key (capacity = length, or an empty message)
    the array is unchanged and the answer is that of the value model. *)
Theorem C43_inputs_unchanged_partial : forall B ID m pubkey message signature,
  (s_cap pubkey < s_len pubkey + length (sread m message))%nat \/ length (sread m message) = 0%nat ->
  VerifyAUG_mem B m pubkey message signature
  = (Verify B (sread m pubkey) ID (sread m message) (sread m signature) ECC_CURVE_BLS_AUG, m).
Proof.
  intros B ID m pub msg sig Hc.
  change (Verify B (sread m pub) ID (sread m msg) (sread m sig) ECC_CURVE_BLS_AUG)
    with (verify_ret (sp_verify (bk_bls B) (sread m pub) (AUG_SCHEME_DST ++ sread m pub ++ sread m msg) (sread m sig))).
  unfold VerifyAUG_mem, append_to. destruct (Nat.leb_spec (s_len pub + length (sread m msg)) (s_cap pub)) as [L|L]; [|reflexivity].
  destruct Hc as [Hc|Hc]; [lia|]. destruct (sread m msg) as [|x r]; [|discriminate Hc].
  assert (W : swrite m (s_off pub + s_len pub) [] = m).
  { unfold swrite. cbn [length app]. rewrite Nat.add_0_r. apply firstn_skipn. }
  rewrite W. reflexivity.
Qed.
Print Assumptions C43_inputs_unchanged_partial.
Example C43_partial_example : (s_cap (mkSlice 0 48 48) < s_len (mkSlice 0 48 48) + length (sread (repeat 7%Z 240) (mkSlice 144 96 96)))%nat.
Proof. vm_compute. lia. Qed.

(** When the bytes the message goes to belong to no input, the answer is right
    as well, although those bytes change. *)
Lemma sread_swrite : forall m off x s, (off + length x <= length m)%nat ->
  (s_off s + s_len s <= off \/ off + length x <= s_off s)%nat -> sread (swrite m off x) s = sread m s.
Proof.
  intros m off x s Hx Hd. unfold sread, swrite. destruct Hd as [Hd|Hd].
  - rewrite skipn_app, firstn_app, skipn_length, firstn_length_le by lia.
    replace (s_len s - (off - s_off s))%nat with 0%nat by lia. cbn [firstn]. rewrite app_nil_r.
    rewrite <- (firstn_skipn off m) at 2. rewrite skipn_app, firstn_app, skipn_length, firstn_length_le by lia.
    replace (s_len s - (off - s_off s))%nat with 0%nat by lia. cbn [firstn]. rewrite app_nil_r. reflexivity.
  - rewrite app_assoc, skipn_app. rewrite skipn_all2 by (rewrite app_length, firstn_length_le by lia; lia).
    rewrite app_length, firstn_length_le by lia. cbn [app]. f_equal.
    rewrite <- (firstn_skipn (off + length x) m) at 2. rewrite skipn_app, firstn_length_le by lia.
    rewrite (skipn_all2 (firstn _ m)) by (rewrite firstn_length_le by lia; lia). reflexivity.
Qed.
Theorem C43_answer_partial : forall B ID m pubkey message signature,
  let d := (s_off pubkey + s_len pubkey)%nat in
  let n := length (sread m message) in
  (d + n <= length m)%nat ->
  (s_off signature + s_len signature <= d \/ d + n <= s_off signature)%nat ->
  fst (VerifyAUG_mem B m pubkey message signature)
  = Verify B (sread m pubkey) ID (sread m message) (sread m signature) ECC_CURVE_BLS_AUG.
Proof.
  intros B ID m pub msg sig d n Hn Hd. subst d n.
  change (Verify B (sread m pub) ID (sread m msg) (sread m sig) ECC_CURVE_BLS_AUG)
    with (verify_ret (sp_verify (bk_bls B) (sread m pub) (AUG_SCHEME_DST ++ sread m pub ++ sread m msg) (sread m sig))).
  unfold VerifyAUG_mem, append_to. destruct (Nat.leb _ _); [|reflexivity]. cbn [fst].
  rewrite (sread_swrite m _ _ pub Hn) by (left; lia). rewrite (sread_swrite m _ _ sig Hn Hd). reflexivity.
Qed.
Print Assumptions C43_answer_partial.
