(** The sponge: any sequence of Writes followed by Sum or Reads gives the output of
    the specification on the concatenation of the inputs. *)
From Coq Require Import ZArith List Bool Lia.
From Verif Require Import Base Words ModelBlake ModelSha3Code ModelSha3 SpecSha3 ProofBlakeC ProofBlake ProofSha3F.
Import ListNotations.
Open Scope Z_scope.

Local Opaque Sha3Spec.keccak_f keccakF1600.

(** ** Absorbing a block *)
Lemma xor_loop : forall n a f, (n <= length a)%nat ->
  fold_left (fun a i => upd a i (Z.lxor (vget a i) (f i))) (seq 0 n) a = Sha3Spec.xor_lanes a (map f (seq 0 n)).
Proof.
  induction n as [|n IH]; intros a f H.
  - destruct a; reflexivity.
  - destruct a as [|x a]; [cbn [length] in H; lia|]. cbn [seq fold_left map Sha3Spec.xor_lanes upd vget nth].
    rewrite <- seq_shift, map_map. rewrite <- (IH a (fun i => f (S i))) by (cbn [length] in H; lia).
    generalize (Z.lxor x (f 0%nat)) as y. generalize (seq 0 n) as l. clear. intros l. revert a.
    induction l as [|i l IH]; intros a y; cbn [map fold_left]; [reflexivity|].
    cbn [upd vget nth]. rewrite IH. reflexivity.
Qed.
Lemma lanes_map b : Sha3Spec.lanes_of b = map (fun i => le2z (firstn 8 (skipn (8 * i) b))) (seq 0 (length b / 8)).
Proof. unfold Sha3Spec.lanes_of. rewrite blocks_map, map_map. reflexivity. Qed.
Lemma xor_in_eq a b : length a = 25%nat -> (length b <= 200)%nat -> xor_in a b = Sha3Spec.xor_lanes a (Sha3Spec.lanes_of b).
Proof.
  intros LA LB. rewrite lanes_map. unfold xor_in.
  apply (xor_loop (length b / 8) a (fun i => le2z (firstn 8 (skipn (8 * i) b)))).
  rewrite LA. apply (Nat.div_le_upper_bound _ 8 25); lia.
Qed.
Lemma xor_lanes_length a : forall b, length (Sha3Spec.xor_lanes a b) = length a.
Proof. induction a as [|x a IH]; intros [|y b]; cbn [Sha3Spec.xor_lanes length]; try reflexivity. now rewrite IH. Qed.
Lemma xor_lanes_all a : forall b, all64 a -> all64 b -> all64 (Sha3Spec.xor_lanes a b).
Proof.
  induction a as [|x a IH]; intros [|y b] Ha Hb; cbn [Sha3Spec.xor_lanes]; try assumption.
  inversion Ha; inversion Hb; subst. constructor; [now apply xor_w64|now apply IH].
Qed.
Lemma lanes_all b : bytes_ok b -> all64 (Sha3Spec.lanes_of b).
Proof.
  intros H. rewrite lanes_map. apply Forall_forall. intros x Hx. apply in_map_iff in Hx. destruct Hx as (i & <- & _).
  pose proof (le2z_bound (firstn 8 (skipn (8 * i) b)) ltac:(apply bytes_ok_firstn, bytes_ok_skipn, H)) as B.
  assert (256 ^ Z.of_nat (length (firstn 8 (skipn (8 * i) b))) <= 256 ^ 8)
    by (apply Z.pow_le_mono_r; [lia|rewrite firstn_length; lia]).
  change (256 ^ 8) with (2 ^ 64) in H0. unfold w64_ok. lia.
Qed.

Definition good (A : list Z) : Prop := length A = 25%nat /\ all64 A.
Lemma good_f A : good A -> good (Sha3Spec.keccak_f A) /\ keccakF1600 A = Sha3Spec.keccak_f A.
Proof. intros [L V]. destruct (keccakF1600_eq A L V) as (E & L' & V'). repeat split; assumption. Qed.
Lemma absorb_eq A b : good A -> (length b <= 200)%nat -> bytes_ok b ->
  keccakF1600 (xor_in A b) = Sha3Spec.absorb A b /\ good (Sha3Spec.absorb A b).
Proof.
  intros [L V] Hb Ok. unfold Sha3Spec.absorb. rewrite xor_in_eq by assumption.
  destruct (good_f (Sha3Spec.xor_lanes A (Sha3Spec.lanes_of b))) as [G E].
  - split; [now rewrite xor_lanes_length|apply xor_lanes_all; [exact V|now apply lanes_all]].
  - split; assumption.
Qed.
Lemma good_0 : good (repeat 0 25).
Proof. split; [reflexivity|]. apply Forall_forall. intros x Hx. apply repeat_spec in Hx. subst. split; lia. Qed.

Section Sponge.
Variable r out : nat.
Variable ds : Z.
Hypothesis Hr : (2 <= r <= 168)%nat.
Hypothesis Hds : 0 <= ds < 128.

Definition state_after (m : bytes) : list Z := fold_left Sha3Spec.absorb (full_blocks r m) (repeat 0 25).
Lemma fold_good l : forall A, good A -> Forall (fun b => length b = r) l -> Forall bytes_ok l -> good (fold_left Sha3Spec.absorb l A).
Proof using All.
  induction l as [|b l IH]; intros A G HL HO; [exact G|]. inversion HL; inversion HO; subst. cbn [fold_left]. apply IH; try assumption.
  apply absorb_eq; try assumption. lia.
Qed.
Lemma state_good m : bytes_ok m -> good (state_after m).
Proof using All. intros Ok. apply fold_good; [exact good_0|apply full_blocks_length; lia|now apply full_blocks_ok]. Qed.

(** ** Write *)
Definition holds (d : sponge) (m : bytes) : Prop :=
  k_rate d = r /\ k_ds d = ds /\ k_out d = out /\ k_sq d = false /\ k_buf d = rest r m /\ k_a d = state_after m.

Lemma state_short m p : (length (rest r m ++ p) < r)%nat -> state_after (m ++ p) = state_after m /\ rest r (m ++ p) = rest r m ++ p.
Proof using All.
  intros H. unfold state_after. destruct (full_blocks_app r ltac:(lia) m p) as [E1 E2].
  destruct (full_blocks_short r (rest r m ++ p) H) as [F1 F2]. rewrite E1, E2, F1, F2, app_nil_r. split; reflexivity.
Qed.
Lemma state_full m p : length (rest r m ++ p) = r ->
  state_after (m ++ p) = Sha3Spec.absorb (state_after m) (rest r m ++ p) /\ rest r (m ++ p) = [].
Proof using All.
  intros H. unfold state_after. destruct (full_blocks_app r ltac:(lia) m p) as [E1 E2].
  destruct (full_blocks_cons r ltac:(lia) (rest r m ++ p) [] H) as [F1 F2]. rewrite app_nil_r in F1, F2.
  rewrite E1, E2, F1, F2, fold_left_app. cbn [fold_left].
  destruct (full_blocks_short r [] ltac:(cbn [length]; lia)) as [-> ->]. split; reflexivity.
Qed.
Lemma rest_ok m : bytes_ok m -> bytes_ok (rest r m).
Proof. intros H. now apply bytes_ok_skipn. Qed.

Lemma write_loop : forall fuel d m p, holds d m -> (length p <= fuel)%nat -> bytes_ok m -> bytes_ok p ->
  holds (kwrite_loop fuel d p) (m ++ p).
Proof using All.
  induction fuel as [|fuel IH]; intros d m p H Hf Om Op.
  - destruct p; [|cbn [length] in Hf; lia]. rewrite app_nil_r. exact H.
  - cbn [kwrite_loop]. destruct (Nat.eqb_spec (length p) 0) as [E0|N0].
    { destruct p; [|discriminate]. rewrite app_nil_r. exact H. }
    destruct H as (Hrate & Hd & Ho & Hs & Hb & Ha). rewrite Hrate, Hb, Ha, Hd, Ho.
    pose proof (rest_lt r ltac:(lia) m) as Lr.
    destruct (Nat.eqb_spec (length (rest r m)) 0) as [Z0|NZ]; [destruct (Nat.leb_spec r (length p)) as [Lp|Lp]|]; cbn [andb].
    + assert (Enil : rest r m = []) by (apply length_zero_iff_nil; exact Z0).
      assert (Lf : length (firstn r p) = r) by (rewrite firstn_length; lia).
      destruct (state_full m (firstn r p)) as [S1 S2]; [rewrite Enil; exact Lf|]. rewrite Enil in S1. cbn [app] in S1.
      rewrite <- (firstn_skipn r p) at 3. rewrite app_assoc. apply IH.
      * unfold holds. cbn [k_rate k_ds k_out k_sq k_buf k_a]. rewrite S1, S2, Enil.
        destruct (absorb_eq (state_after m) (firstn r p) (state_good m Om) ltac:(lia) (bytes_ok_firstn _ _ Op)) as [E _].
        rewrite E. repeat split; reflexivity.
      * rewrite skipn_length. lia.
      * apply bytes_ok_app; [exact Om|now apply bytes_ok_firstn].
      * now apply bytes_ok_skipn.
    + assert (Et : Nat.min (r - length (rest r m)) (length p) = length p) by lia. rewrite Et, firstn_all, skipn_all.
      assert (Ls : (length (rest r m ++ p) < r)%nat) by (rewrite app_length; lia). cbn [k_buf k_rate].
      rewrite (proj2 (Nat.eqb_neq _ _)) by lia.
      destruct (state_short m p Ls) as [S1 S2].
      rewrite <- (app_nil_r (m ++ p)). apply IH; [|cbn [length]; lia|now apply bytes_ok_app|constructor].
      unfold holds. cbn [k_rate k_ds k_out k_sq k_buf k_a]. rewrite S1, S2. repeat split; reflexivity.
    + destruct (Nat.lt_ge_cases (length (rest r m) + length p) r) as [Lt|Ge].
      * assert (Et : Nat.min (r - length (rest r m)) (length p) = length p) by lia. rewrite Et, firstn_all, skipn_all.
        assert (Ls : (length (rest r m ++ p) < r)%nat) by (rewrite app_length; lia). cbn [k_buf k_rate].
        rewrite (proj2 (Nat.eqb_neq _ _)) by lia.
        destruct (state_short m p Ls) as [S1 S2].
        rewrite <- (app_nil_r (m ++ p)). apply IH; [|cbn [length]; lia|now apply bytes_ok_app|constructor].
        unfold holds. cbn [k_rate k_ds k_out k_sq k_buf k_a]. rewrite S1, S2. repeat split; reflexivity.
      * assert (Et : Nat.min (r - length (rest r m)) (length p) = (r - length (rest r m))%nat) by lia. rewrite Et.
        set (t := (r - length (rest r m))%nat) in *.
        assert (Ls : length (rest r m ++ firstn t p) = r) by (rewrite app_length, firstn_length; lia). cbn [k_buf k_rate].
        rewrite (proj2 (Nat.eqb_eq _ _) Ls).
        destruct (state_full m (firstn t p) Ls) as [S1 S2].
        rewrite <- (firstn_skipn t p) at 3. rewrite app_assoc. apply IH.
        -- unfold permute. cbn [k_sq k_a k_buf k_rate k_ds k_out].
           unfold holds. cbn [k_rate k_ds k_out k_sq k_buf k_a]. rewrite S1, S2.
           destruct (absorb_eq (state_after m) (rest r m ++ firstn t p) (state_good m Om) ltac:(lia)) as [E _].
           { apply bytes_ok_app; [now apply rest_ok|now apply bytes_ok_firstn]. }
           rewrite E. repeat split; reflexivity.
        -- rewrite skipn_length. lia.
        -- apply bytes_ok_app; [exact Om|now apply bytes_ok_firstn].
        -- now apply bytes_ok_skipn.
Qed.
Lemma holds_write d m p : holds d m -> bytes_ok m -> bytes_ok p -> exists d', kwrite d p = Some d' /\ holds d' (m ++ p).
Proof using All.
  intros H Om Op. unfold kwrite. rewrite (proj1 (proj2 (proj2 (proj2 H)))). eexists. split; [reflexivity|].
  apply write_loop; try assumption. lia.
Qed.
Fixpoint writes (d : sponge) (ps : list bytes) : option sponge :=
  match ps with
  | [] => Some d
  | p :: ps => match kwrite d p with Some d => writes d ps | None => None end
  end.
Lemma holds_writes ps : forall d m, holds d m -> bytes_ok m -> Forall bytes_ok ps ->
  exists d', writes d ps = Some d' /\ holds d' (m ++ concat ps).
Proof using All.
  induction ps as [|p ps IH]; intros d m H Om Ops.
  - exists d. cbn [writes concat]. rewrite app_nil_r. split; [reflexivity|exact H].
  - inversion Ops; subst. cbn [writes concat]. destruct (holds_write d m p H Om) as (d' & -> & H'); [assumption|].
    rewrite app_assoc. apply IH; try assumption. now apply bytes_ok_app.
Qed.
Lemma holds_new : holds (knew r out ds) [].
Proof using All.
  destruct (full_blocks_short r [] ltac:(cbn [length]; lia)) as [E1 E2].
  unfold holds, knew, state_after. cbn [k_rate k_ds k_out k_sq k_buf k_a]. rewrite E1, E2. repeat split; reflexivity.
Qed.

(** ** Padding *)
Lemma upd_last (l : bytes) x y : upd (l ++ [x]) (length l) y = l ++ [y].
Proof. induction l as [|z l IH]; cbn [app length upd]; [reflexivity|]. now rewrite IH. Qed.
Lemma vget_last (l : bytes) x : vget (l ++ [x]) (length l) = x.
Proof. unfold vget. rewrite app_nth2 by lia. rewrite Nat.sub_diag. reflexivity. Qed.
Lemma ds_bit : Z.lxor ds 0x80 = ds + 0x80.
Proof using All.
  assert (D : Z.land ds 128 = 0).
  { apply Z.bits_inj'. intros n Hn. rewrite Z.land_spec, Z.bits_0. change 128 with (2 ^ 7). rewrite Z.pow2_bits_eqb by lia.
    destruct (Z.eqb_spec 7 n) as [<-|]; [|apply andb_false_r]. rewrite andb_true_r.
    apply (testbit_high ds 7); [|lia]. change (2 ^ 7) with 128. exact Hds. }
  rewrite Z.lxor_lor by exact D. symmetry. rewrite Z.add_nocarry_lxor by exact D. now rewrite Z.lxor_lor.
Qed.
Definition padding (m : bytes) : bytes := Sha3Spec.pad r ds (length m).
Lemma padded m : (let b := rest r m ++ [ds] in let b := b ++ repeat 0 (r - length b) in
  upd b (r - 1) (Z.lxor (vget b (r - 1)) 0x80)) = rest r m ++ padding m.
Proof using All.
  cbv zeta. unfold padding, Sha3Spec.pad. rewrite <- rest_length by lia.
  pose proof (rest_lt r ltac:(lia) m) as L. revert L. generalize (rest r m) as b. intros b L.
  rewrite app_length. cbn [length]. destruct (Nat.eqb_spec (r - length b) 1) as [E|N].
  - replace (r - (length b + 1))%nat with 0%nat by lia. cbn [repeat]. rewrite app_nil_r.
    replace (r - 1)%nat with (length b) by lia. rewrite vget_last, upd_last, ds_bit. reflexivity.
  - replace (r - (length b + 1))%nat with (S (r - length b - 2)) by lia.
    rewrite <- (Nat.add_1_r (r - length b - 2)), repeat_app. cbn [repeat].
    rewrite app_assoc. set (u := (b ++ [ds]) ++ repeat 0 (r - length b - 2)).
    assert (Lu : length u = (r - 1)%nat) by (subst u; rewrite !app_length, repeat_length; cbn [length]; lia).
    rewrite <- Lu, vget_last, upd_last. subst u. rewrite <- !app_assoc. reflexivity.
Qed.
Lemma padding_length m : length (rest r m ++ padding m) = r.
Proof using All.
  rewrite <- padded. cbv zeta. rewrite upd_length, !app_length, repeat_length.
  pose proof (rest_lt r ltac:(lia) m). cbn [length]. lia.
Qed.
Lemma padding_ok m : bytes_ok (padding m).
Proof using All.
  unfold padding, Sha3Spec.pad. destruct (Nat.eqb _ 1).
  - repeat constructor; unfold byte_ok; lia.
  - apply bytes_ok_app; [repeat constructor; unfold byte_ok; lia|]. apply bytes_ok_app; [|repeat constructor; unfold byte_ok; lia].
    apply Forall_forall. intros x Hx. apply repeat_spec in Hx. subst. unfold byte_ok. lia.
Qed.

(** ** Reading: [at_pos d A n] says that n bytes have been read. *)
Fixpoint iterf (F : list Z -> list Z) (k : nat) (A : list Z) : list Z :=
  match k with O => A | S k => iterf F k (F A) end.
Lemma iterf_S F k : forall A, iterf F (S k) A = F (iterf F k A).
Proof. induction k as [|k IH]; intros A; [reflexivity|]. change (iterf F (S (S k)) A) with (iterf F (S k) (F A)). now rewrite IH. Qed.
Definition perms := iterf Sha3Spec.keccak_f.
Definition block (A : list Z) : bytes := firstn r (Sha3Spec.bytes_of A).
Definition at_pos (A : list Z) (d : sponge) (n : nat) : Prop :=
  k_rate d = r /\ k_ds d = ds /\ k_out d = out /\ k_sq d = true /\
  k_a d = perms (n / r) A /\ k_off d = (n mod r)%nat /\ k_buf d = skipn (n mod r) (block (perms (n / r) A)).

Lemma perms_good k : forall A, good A -> good (perms k A).
Proof. induction k as [|k IH]; intros A G; [exact G|]. unfold perms in *. cbn [iterf]. apply IH, good_f, G. Qed.
Lemma perms_S k : forall A, perms (S k) A = Sha3Spec.keccak_f (perms k A).
Proof. intros A. apply iterf_S. Qed.
Lemma bytes_of_length A : length A = 25%nat -> length (Sha3Spec.bytes_of A) = 200%nat.
Proof.
  intros L. unfold Sha3Spec.bytes_of.
  assert (H : length (concat (map (z2le 8) A)) = (8 * length A)%nat).
  { clear. induction A as [|x A IH]; cbn [map concat length]; [reflexivity|]. rewrite app_length, z2le_length, IH. lia. }
  rewrite H, L. reflexivity.
Qed.
Lemma block_length A : length A = 25%nat -> length (block A) = r.
Proof using All. intros L. unfold block. rewrite firstn_length, bytes_of_length by exact L. lia. Qed.

Lemma squeeze_skip q : forall K A, good A -> (q <= K)%nat ->
  skipn (q * r) (Sha3Spec.squeeze r K A) = Sha3Spec.squeeze r (K - q) (perms q A).
Proof using All.
  induction q as [|q IH]; intros K A G H.
  - rewrite Nat.sub_0_r. reflexivity.
  - destruct K as [|K]; [lia|]. cbn [Sha3Spec.squeeze Nat.sub]. change (perms (S q) A) with (perms q (Sha3Spec.keccak_f A)). change (S q * r)%nat with (r + q * r)%nat.
    rewrite <- skipn_add. rewrite skipn_app. fold (block A). rewrite (block_length A (proj1 G)), Nat.sub_diag.
    rewrite (skipn_all2 (block A)) by (rewrite (block_length A (proj1 G)); lia). cbn [app skipn]. apply IH; [apply good_f, G|lia].
Qed.
Lemma squeeze_length K : forall A, good A -> length (Sha3Spec.squeeze r K A) = (K * r)%nat.
Proof using All.
  induction K as [|K IH]; intros A G; [reflexivity|]. cbn [Sha3Spec.squeeze]. rewrite app_length, IH by (apply good_f, G).
  fold (block A). rewrite (block_length A (proj1 G)). lia.
Qed.
(** The part of the output inside one block. *)
Lemma squeeze_part K A n c : good A -> (n mod r + c <= r)%nat -> (0 < c)%nat -> (n + c <= K * r)%nat ->
  firstn c (skipn n (Sha3Spec.squeeze r K A)) = firstn c (skipn (n mod r) (block (perms (n / r) A))).
Proof using All.
  intros G H1 H2 H3. pose proof (Nat.div_mod n r ltac:(lia)) as D.
  assert (Hq : (n / r < K)%nat) by (apply Nat.div_lt_upper_bound; nia).
  rewrite D at 1. rewrite (Nat.mul_comm r), <- skipn_add, squeeze_skip by (try exact G; lia).
  destruct (K - n / r)%nat as [|k] eqn:EK; [lia|]. cbn [Sha3Spec.squeeze]. fold (block (perms (n / r) A)).
  pose proof (block_length _ (proj1 (perms_good (n / r) A G))) as LB.
  rewrite skipn_app, firstn_app, skipn_length, LB.
  replace (c - (r - n mod r))%nat with 0%nat by lia. cbn [firstn]. apply app_nil_r.
Qed.

Lemma permute_at A d n : good A -> k_rate d = r -> k_ds d = ds -> k_out d = out -> k_sq d = true ->
  k_a d = perms (n / r) A -> at_pos A (permute d) ((n / r + 1) * r).
Proof using All.
  intros G H1 H2 H3 H4 H5. unfold permute. rewrite H4. unfold at_pos. cbn [k_rate k_ds k_out k_sq k_a k_off k_buf].
  rewrite Nat.div_mul, Nat.mod_mul by lia. rewrite Nat.add_1_r, perms_S, H1, H2, H3, H5.
  destruct (good_f (perms (n / r) A) (perms_good _ _ G)) as [_ E]. rewrite E. repeat split; reflexivity.
Qed.

Lemma read_loop : forall fuel A d n c K, good A -> at_pos A d n -> (c <= fuel)%nat -> (n + c <= K * r)%nat ->
  at_pos A (fst (kread_loop fuel d c)) (n + c) /\ snd (kread_loop fuel d c) = firstn c (skipn n (Sha3Spec.squeeze r K A)).
Proof using All.
  induction fuel as [|fuel IH]; intros A d n c K G H Hf HK.
  - replace c with 0%nat by lia. rewrite Nat.add_0_r. cbn [kread_loop fst snd firstn]. split; [exact H|reflexivity].
  - cbn [kread_loop]. destruct (Nat.eqb_spec c 0) as [->|N0].
    { rewrite Nat.add_0_r. cbn [fst snd firstn]. split; [exact H|reflexivity]. }
    destruct H as (H1 & H2 & H3 & H4 & H5 & H6 & H7).
    pose proof (Nat.div_mod n r ltac:(lia)) as D. pose proof (Nat.mod_upper_bound n r ltac:(lia)) as U.
    pose proof (block_length _ (proj1 (perms_good (n / r) A G))) as LB.
    assert (Lb : length (k_buf d) = (r - n mod r)%nat) by (rewrite H7, skipn_length, LB; reflexivity).
    rewrite Lb. set (t := Nat.min c (r - n mod r)).
    assert (Et : firstn t (k_buf d) = firstn t (skipn n (Sha3Spec.squeeze r K A))).
    { rewrite H7. symmetry. apply squeeze_part; [exact G| | |]; subst t; lia. }
    set (d1 := MkSponge (k_a d) (skipn t (k_buf d)) (k_rate d) (k_ds d) (k_out d) true (k_off d + t)).
    assert (A1 : at_pos A (if Nat.eqb (length (k_buf d1)) 0 then permute d1 else d1) (n + t)).
    { subst d1. cbn [k_buf]. rewrite skipn_length, Lb. destruct (Nat.eqb_spec (r - n mod r - t) 0) as [E|N].
      - replace (n + t)%nat with ((n / r + 1) * r)%nat by (subst t; nia).
        apply permute_at; cbn [k_rate k_ds k_out k_sq k_a]; try assumption; reflexivity.
      - assert (Dq : ((n + t) / r = n / r)%nat) by (symmetry; apply (Nat.div_unique _ r _ (n mod r + t)); subst t; lia).
        assert (Dm : ((n + t) mod r = n mod r + t)%nat) by (symmetry; apply (Nat.mod_unique _ r (n / r)); subst t; lia).
        unfold at_pos. cbn [k_rate k_ds k_out k_sq k_a k_off k_buf]. rewrite Dq, Dm, H6, H7, skipn_add. repeat split; assumption. }
    destruct (IH A _ (n + t)%nat (c - t)%nat K G A1) as [I1 I2]; [subst t; lia|subst t; lia|].
    destruct (kread_loop fuel (if Nat.eqb (length (k_buf d1)) 0 then permute d1 else d1) (c - t)) as [d2 o] eqn:EL.
    cbn [fst snd] in *. split.
    + replace (n + c)%nat with (n + t + (c - t))%nat by (subst t; lia). exact I1.
    + rewrite I2, Et. rewrite <- skipn_add. set (s := skipn n (Sha3Spec.squeeze r K A)).
      assert (Ec : c = (t + (c - t))%nat) by (subst t; lia). rewrite Ec at 2.
      rewrite <- (firstn_skipn t s) at 3. rewrite firstn_app. f_equal.
      * rewrite firstn_firstn. f_equal. lia.
      * rewrite firstn_length. assert (t <= length s)%nat.
        { subst s. rewrite skipn_length, (squeeze_length K A G). subst t. lia. }
        f_equal. lia.
Qed.

Definition final (m : bytes) : list Z := state_after (m ++ padding m).
Lemma final_good m : bytes_ok m -> good (final m).
Proof using All. intros Ok. apply state_good. apply bytes_ok_app; [exact Ok|apply padding_ok]. Qed.
Lemma pad_at m d : holds d m -> bytes_ok m -> at_pos (final m) (pad_and_permute d) 0.
Proof using All.
  intros (H1 & H2 & H3 & H4 & H5 & H6) Ok. unfold pad_and_permute. rewrite H5, H2, H1. pose proof (padded m) as P. cbv zeta in P |- *. rewrite P.
  unfold permute. cbn [k_sq k_a k_rate k_buf k_ds k_out].
  assert (E : keccakF1600 (xor_in (k_a d) (rest r m ++ padding m)) = final m).
  { rewrite H6. unfold final. destruct (state_full m (padding m) (padding_length m)) as [-> _].
    apply absorb_eq; [now apply state_good|rewrite padding_length; lia|]. apply bytes_ok_app; [now apply rest_ok|apply padding_ok]. }
  rewrite E. unfold at_pos. rewrite Nat.div_0_l, Nat.mod_0_l by lia. cbn [k_rate k_ds k_out k_sq k_a k_off k_buf perms iterf skipn].
  repeat split; assumption.
Qed.
Lemma sponge_eq m n : Sha3Spec.sponge r ds m n = firstn n (Sha3Spec.squeeze r (n / r + 1) (final m)).
Proof. reflexivity. Qed.
Lemma squeeze_more m n K : bytes_ok m -> (n <= K * r)%nat -> firstn n (Sha3Spec.squeeze r K (final m)) = Sha3Spec.sponge r ds m n.
Proof using All.
  intros Ok H. rewrite sponge_eq. pose proof (final_good m Ok) as G. revert H G. generalize (final m) as A.
  assert (X : forall K K' n A, good A -> (n <= K * r)%nat -> (n <= K' * r)%nat -> firstn n (Sha3Spec.squeeze r K A) = firstn n (Sha3Spec.squeeze r K' A)).
  { clear K n. induction K as [|K IH]; intros [|K'] n A G H H'; try (replace n with 0%nat by lia; reflexivity).
    cbn [Sha3Spec.squeeze]. fold (block A). rewrite !firstn_app. f_equal. rewrite (block_length A (proj1 G)). apply IH; [apply good_f, G|lia|lia]. }
  intros A H G. apply X; [exact G|exact H|]. pose proof (Nat.div_mod n r ltac:(lia)). pose proof (Nat.mod_upper_bound n r ltac:(lia)). nia.
Qed.

(** ** Sum and Read *)
Lemma sum_holds d m inp : holds d m -> bytes_ok m -> ksum d inp = Some (inp ++ Sha3Spec.sponge r ds m out).
Proof using All.
  intros H Ok. unfold ksum, kclone. pose proof H as (H1 & H2 & H3 & H4 & H5 & H6). rewrite H4, H3. unfold kread. rewrite H4.
  destruct (read_loop out (final m) (pad_and_permute d) 0 out (out / r + 1) (final_good m Ok) (pad_at m d H Ok) ltac:(lia)) as [_ E].
  - pose proof (Nat.div_mod out r ltac:(lia)). pose proof (Nat.mod_upper_bound out r ltac:(lia)). nia.
  - rewrite E. cbn [skipn]. rewrite sponge_eq. reflexivity.
Qed.
Theorem kstream_sum ps inp : Forall bytes_ok ps ->
  exists d, writes (knew r out ds) ps = Some d /\ ksum d inp = Some (inp ++ Sha3Spec.sponge r ds (concat ps) out).
Proof using All.
  intros H. destruct (holds_writes ps _ [] holds_new ltac:(constructor) H) as (d & E & Hd). exists d. split; [exact E|].
  apply sum_holds; [exact Hd|]. cbn [app]. clear - H. induction H; cbn [concat]; [constructor|now apply bytes_ok_app].
Qed.

(** Several Reads: each gives the next part of the output. *)
Fixpoint reads (d : sponge) (ns : list nat) : sponge * list bytes :=
  match ns with
  | [] => (d, [])
  | n :: ns => let (d1, o) := kread d n in let (d2, os) := reads d1 ns in (d2, o :: os)
  end.
Lemma read_at A d n c K : good A -> at_pos A d n -> (n + c <= K * r)%nat ->
  at_pos A (fst (kread d c)) (n + c) /\ snd (kread d c) = firstn c (skipn n (Sha3Spec.squeeze r K A)).
Proof using All.
  intros G H HK. unfold kread. rewrite (proj1 (proj2 (proj2 (proj2 H)))). apply read_loop; try assumption. lia.
Qed.
Lemma reads_at A K ns : forall d n, good A -> at_pos A d n -> (n + list_sum ns <= K * r)%nat ->
  at_pos A (fst (reads d ns)) (n + list_sum ns) /\
  concat (snd (reads d ns)) = firstn (list_sum ns) (skipn n (Sha3Spec.squeeze r K A)) /\
  map (@length Z) (snd (reads d ns)) = ns.
Proof using All.
  change list_sum with (fold_right Nat.add 0%nat).
  induction ns as [|c ns IH]; intros d n G H HK.
  - cbn [reads fst snd fold_right concat map]. rewrite Nat.add_0_r. repeat split; try reflexivity; apply H.
  - cbn [reads fold_right] in *. destruct (read_at A d n c K G H ltac:(lia)) as [H1 E1].
    destruct (kread d c) as [d1 o] eqn:E. cbn [fst snd] in *.
    destruct (IH d1 (n + c)%nat G H1 ltac:(lia)) as (I1 & I2 & I3).
    destruct (reads d1 ns) as [d2 os] eqn:Er. cbn [fst snd] in *. set (u := fold_right Nat.add 0%nat ns) in *.
    replace (n + (c + u))%nat with (n + c + u)%nat by lia. split; [exact I1|].
    pose proof (squeeze_length K A G) as LQ. split.
    + cbn [concat]. rewrite I2, E1. rewrite <- skipn_add. set (s := skipn n (Sha3Spec.squeeze r K A)).
      assert (c <= length s)%nat by (subst s; rewrite skipn_length; lia).
      rewrite <- (firstn_skipn c s) at 3. rewrite firstn_app, firstn_firstn, firstn_length. f_equal; f_equal; lia.
    + cbn [map]. rewrite I3. f_equal. rewrite E1, firstn_length, skipn_length. lia.
Qed.
Lemma reads_holds d m ns : holds d m -> bytes_ok m ->
  concat (snd (reads d ns)) = Sha3Spec.sponge r ds m (list_sum ns) /\ map (@length Z) (snd (reads d ns)) = ns.
Proof using All.
  intros H Ok. destruct ns as [|c ns]; [split; reflexivity|].
  assert (E : reads d (c :: ns) = reads (pad_and_permute d) (c :: ns)).
  { cbn [reads]. unfold kread. rewrite (proj1 (proj2 (proj2 (proj2 H)))).
    rewrite (proj1 (proj2 (proj2 (proj2 (pad_at m d H Ok))))). reflexivity. }
  rewrite E. set (n := list_sum (c :: ns)).
  destruct (reads_at (final m) (n / r + 1) (c :: ns) (pad_and_permute d) 0 (final_good m Ok) (pad_at m d H Ok)) as (_ & I2 & I3).
  - fold n. pose proof (Nat.div_mod n r ltac:(lia)). pose proof (Nat.mod_upper_bound n r ltac:(lia)). nia.
  - fold n in I2. rewrite I2. split; [|exact I3]. reflexivity.
Qed.
Theorem kstream_read ps ns : Forall bytes_ok ps ->
  exists d, writes (knew r out ds) ps = Some d /\
    concat (snd (reads d ns)) = Sha3Spec.sponge r ds (concat ps) (list_sum ns) /\ map (@length Z) (snd (reads d ns)) = ns.
Proof using All.
  intros H. destruct (holds_writes ps _ [] holds_new ltac:(constructor) H) as (d & E & Hd). exists d. split; [exact E|].
  apply reads_holds; [exact Hd|]. cbn [app]. clear - H. induction H; cbn [concat]; [constructor|now apply bytes_ok_app].
Qed.

(** Clone while reading, when the storage is exactly one block. *)
Lemma clone_at A d n : r = 168%nat -> at_pos A d n -> kclone d = Some d.
Proof using All.
  intros R H. unfold kclone. destruct d as [a b rt s o sq off]. unfold at_pos in H. cbn [k_rate k_ds k_out k_sq k_a k_off k_buf] in *.
  destruct H as (H1 & H2 & H3 & -> & H5 & H6 & H7).
  pose proof (Nat.mod_upper_bound n r ltac:(lia)) as U.
  assert (E : Z.of_nat rt - (168 - Z.of_nat off) = Z.of_nat off) by lia. rewrite E.
  destruct (Z.ltb_spec (Z.of_nat off) 0); [lia|]. rewrite Nat2Z.id. do 2 f_equal. rewrite H5, H6, H7, H1. reflexivity.
Qed.
End Sponge.
