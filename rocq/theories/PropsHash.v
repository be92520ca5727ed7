(** Properties C31-C37, C62 and C63: the hash functions. *)
From Coq Require Import ZArith List Bool Lia.
From Verif Require Import Base Words ModelBlakeCode ModelBlake ModelSha3Code ModelSha3 ModelSM3 ModelHash
  SpecHash SpecSM3 SpecBlake SpecSha3 ProofSM3 ProofBlakeC ProofBlake ProofBlake2s ProofSha3F ProofSha3 ProofHash.
Import ListNotations HashSpec.
Open Scope Z_scope.

Definition abc : bytes := [97; 98; 99].
Lemma abc_ok : bytes_ok abc.
Proof. repeat constructor; unfold byte_ok; lia. Qed.
(** Some hashes for the standard library, for the examples. *)
Definition demo_std : stdhash := Build_stdhash (fun m => m) (fun m => m) (fun m => m) (fun m => rev m) (fun m => m) (fun m => m) (fun _ => None).

(** C31: SM3. *)
Theorem C31_sm3_standard : forall (H : stdhash) m len, bytes_ok m -> Hash H m len HASH_ALG_SM3 = Ret (Some (SM3Spec.hash m)).
Proof. intros H m len Ok. change (Hash H m len HASH_ALG_SM3) with (some_of (once sm3_impl m)). now rewrite once_sm3. Qed.
Print Assumptions C31_sm3_standard.
Example C31_example : Hash demo_std abc 0 HASH_ALG_SM3 = Ret (Some (z2be 32 0x66c7f0f462eeedd9d1f2d46bdc10e4e24167c4875cf2f7a2297da02b8f4ba8e0)).
Proof. vm_compute. reflexivity. Qed.

(** C32: the message can be written in parts.  The objects: *)
Inductive repo_hash : himpl -> Prop :=
| RhSm3 : repo_hash sm3_impl
| RhBlake wide small : repo_hash (blake_impl (params_of wide) (bnew (params_of wide) small))
| RhBlakeSalt wide small salt d : bytes_ok salt -> bnew_salt (params_of wide) small salt = Some d -> repo_hash (blake_impl (params_of wide) d)
| RhBlake2s size key d : 0 <= size < 256 -> new2s size key = Some d -> repo_hash (blake2s_impl d)
| RhSha3 d : In d [NewKeccak256; NewKeccak512; New224; New256; New384; New512] -> repo_hash (sha3_impl d).
Lemma salted wide small salt d : bytes_ok salt -> bnew_salt (params_of wide) small salt = Some d ->
  length (BlakeSpec.salt_words (variant_of wide small) salt) = 4%nat /\
  Forall (word (bp_W (params_of wide))) (BlakeSpec.salt_words (variant_of wide small) salt) /\
  d = with_salt (params_of wide) small (BlakeSpec.salt_words (variant_of wide small) salt).
Proof.
  intros Ok. unfold bnew_salt. destruct (Nat.eqb _ _); [|discriminate]. intros E. apply some_inj in E.
  assert (ES : BlakeSpec.salt_words (variant_of wide small) salt = bsalt (params_of wide) salt).
  { rewrite bsalt_eq. unfold BlakeSpec.salt_words. destruct wide, small; reflexivity. }
  rewrite ES. destruct (salt_ok wide salt Ok) as [L F]. split; [exact L|]. split; [exact F|]. rewrite <- E. reflexivity.
Qed.
Lemma zero_words wide : Forall (word (bp_W (params_of wide))) [0; 0; 0; 0].
Proof. destruct wide; apply words_dec; reflexivity. Qed.
Lemma size2s size key d : 0 <= size < 256 -> new2s size key = Some d ->
  let nn := if size =? 0 then 32 else size in 1 <= nn <= 32 /\ new2s nn key = Some d.
Proof.
  intros Hs. unfold new2s. destruct (Z.eqb_spec size 0) as [->|N].
  - cbv zeta. intros E. split; [lia|]. exact E.
  - cbv zeta. destruct (Z.ltb_spec 32 size) as [L|L]; [discriminate|]. intros E. split; [lia|].
    rewrite (proj2 (Z.eqb_neq size 0) N), (proj2 (Z.ltb_ge 32 size) L). exact E.
Qed.
Theorem C32_streaming : forall I ps, repo_hash I -> Forall bytes_ok ps ->
  history I (hnew I) (map Write ps ++ [Sum []]) = history I (hnew I) [Write (concat ps); Sum []].
Proof.
  intros I ps HI Ops. destruct HI as [|wide small|wide small salt d Os Ed|size key d Hs Ed|d Hd].
  - now apply sm3_parts.
  - destruct (blake_refines wide small [0; 0; 0; 0] eq_refl (zero_words wide)) as (R & HR & HD). exact (parts_det _ _ _ _ HR HD ps Ops).
  - destruct (salted wide small salt d Os Ed) as (L & F & ->).
    destruct (blake_refines wide small _ L F) as (R & HR & HD). exact (parts_det _ _ _ _ HR HD ps Ops).
  - destruct (size2s size key d Hs Ed) as [Hn En]. exact (parts_total _ _ _ (blake2s_refines _ key d Hn En) ps Ops).
  - cbn [In] in Hd. repeat destruct Hd as [<-|Hd]; try contradiction; refine (parts_total _ _ _ (sha3_refines _ _ _ _ _) ps Ops); lia.
Qed.
Print Assumptions C32_streaming.
Example C32_example : repo_hash sm3_impl /\ repo_hash (blake_impl blake512_params (bnew blake512_params false)) /\
  (exists d, new2s 20 abc = Some d /\ repo_hash (blake2s_impl d)) /\ Forall bytes_ok [abc; []; abc].
Proof.
  split; [constructor|]. split; [exact (RhBlake true false)|]. split.
  - eexists. split; [reflexivity|]. eapply (RhBlake2s 20 abc); [lia|reflexivity].
  - repeat constructor; unfold byte_ok; lia.
Qed.

Lemma sm3_first m : bytes_ok m -> snd (sm3_sum (sm3_write sm3_new m) []) = SM3Spec.hash m.
Proof.
  intros Ok. rewrite (sum_eq (sm3_write sm3_new m) m []); [now rewrite app_nil_r|exact Ok|constructor|].
  exact (ProofSM3.holds_write sm3_new [] m ltac:(constructor) Ok ProofSM3.holds_new).
Qed.
Lemma ret_len (x y : bytes) : Ret [x] = Ret [y] -> length x = length y.
Proof. intros E. congruence. Qed.
(** C33: Sum leaves the object as it was and appends the digest to its argument. *)
Theorem C33_sum_keeps_state_refuted :
  (exists cs, Forall call_ok cs /\ history sm3_impl (hnew sm3_impl) cs <> Ret (answers SM3Spec.hash [] cs) /\ cs = [Sum [1]]) /\
  (exists d1 d2, history sm3_impl (hnew sm3_impl) [Write abc; Sum []; Sum []] = Ret [d1; d2] /\ d1 = SM3Spec.hash abc /\ d2 <> d1).
Proof.
  split.
  - exists [Sum [1]]. split; [repeat constructor; unfold byte_ok; lia|]. split; [|reflexivity].
    change (history sm3_impl (hnew sm3_impl) [Sum [1]]) with (Ret [snd (sm3_sum sm3_new [1])]).
    rewrite (sum_eq sm3_new [] [1]); [|constructor|repeat constructor; unfold byte_ok; lia|exact ProofSM3.holds_new].
    cbn [answers]. intros E. assert (L : length (SM3Spec.hash ([] ++ [1])) = length ([1] ++ SM3Spec.hash [])) by exact (ret_len _ _ E).
    rewrite app_length, !hash_length in L. discriminate.
  - exists (z2be 32 0x66c7f0f462eeedd9d1f2d46bdc10e4e24167c4875cf2f7a2297da02b8f4ba8e0), (snd (sm3_sum (fst (sm3_sum (sm3_write sm3_new abc) [])) [])).
    assert (E : snd (sm3_sum (sm3_write sm3_new abc) []) = z2be 32 0x66c7f0f462eeedd9d1f2d46bdc10e4e24167c4875cf2f7a2297da02b8f4ba8e0) by (vm_compute; reflexivity).
    split; [rewrite <- E; reflexivity|]. split.
    + rewrite <- E. exact (sm3_first abc abc_ok).
    + vm_compute. discriminate.
Qed.
Print Assumptions C33_sum_keeps_state_refuted.
(** The other hashes keep the promise, over any history of Writes, Sums and Resets. *)
Theorem C33_sum_keeps_state_partial : forall cs, Forall call_ok cs ->
  (forall wide small, Forall short (summed [] cs) ->
     let I := blake_impl (params_of wide) (bnew (params_of wide) small) in
     history I (hnew I) cs = Ret (answers (BlakeSpec.hash (variant_of wide small) BlakeSpec.no_salt) [] cs)) /\
  (forall wide small salt d, bytes_ok salt -> bnew_salt (params_of wide) small salt = Some d -> Forall short (summed [] cs) ->
     let I := blake_impl (params_of wide) d in
     history I (hnew I) cs = Ret (answers (BlakeSpec.hash (variant_of wide small) (BlakeSpec.salt_words (variant_of wide small) salt)) [] cs)) /\
  (forall size key d, 1 <= size <= 32 -> new2s size key = Some d ->
     history (blake2s_impl d) d cs = Ret (answers (BlakeSpec.mac2s size key) [] cs)) /\
  (forall d h, In (d, h) [(NewKeccak256, Sha3Spec.keccak_256); (NewKeccak512, Sha3Spec.keccak_512); (New224, Sha3Spec.sha3_224);
      (New256, Sha3Spec.sha3_256); (New384, Sha3Spec.sha3_384); (New512, Sha3Spec.sha3_512)] ->
     history (sha3_impl d) d cs = Ret (answers h [] cs)).
Proof.
  intros cs Oc. split; [|split; [|split]].
  - intros wide small Sh. destruct (blake_refines wide small [0; 0; 0; 0] eq_refl (zero_words wide)) as (R & HR & _).
    exact (history_new _ _ _ _ HR cs Oc Sh).
  - intros wide small salt d Os Ed Sh. destruct (salted wide small salt d Os Ed) as (L & F & ->).
    destruct (blake_refines wide small _ L F) as (R & HR & _). exact (history_new _ _ _ _ HR cs Oc Sh).
  - intros size key d Hs Ed. refine (history_new _ _ _ _ (blake2s_refines size key d Hs Ed) cs Oc _). apply Forall_forall. trivial.
  - intros d h Hd. cbn [In] in Hd.
    repeat destruct Hd as [Hd|Hd]; try contradiction; injection Hd; intros <- <-;
      (refine (history_new _ _ _ _ (sha3_refines _ _ _ _ _) cs Oc _); [lia|lia|apply Forall_forall; trivial]).
Qed.
Print Assumptions C33_sum_keeps_state_partial.
Example C33_example : let cs := [Write abc; Sum [7]; Write abc; Sum []; Reset; Sum [9]] in
  Forall call_ok cs /\ Forall short (summed [] cs) /\ summed [] cs = [abc; abc ++ abc; []].
Proof. repeat split; repeat constructor; unfold byte_ok; lia. Qed.

(** C34: BLAKE-256 and BLAKE-512. *)
Theorem C34_blake_standard : forall (H : stdhash) m len, bytes_ok m -> 8 * Z.of_nat (length m) < 2 ^ 64 ->
  Hash H m len HASH_ALG_BLAKE256 = Ret (Some (BlakeSpec.hash BlakeSpec.blake256 BlakeSpec.no_salt m)) /\
  Hash H m len HASH_ALG_BLAKE512 = Ret (Some (BlakeSpec.hash BlakeSpec.blake512 BlakeSpec.no_salt m)).
Proof.
  intros H m len Ok L. split.
  - change (Hash H m len HASH_ALG_BLAKE256) with (some_of (once (blake_impl (params_of false) (bnew (params_of false) false)) m)).
    now rewrite once_blake.
  - change (Hash H m len HASH_ALG_BLAKE512) with (some_of (once (blake_impl (params_of true) (bnew (params_of true) false)) m)).
    now rewrite once_blake.
Qed.
Print Assumptions C34_blake_standard.
(* the vector of the BLAKE submission: one zero byte *)
Example C34_example : Hash demo_std [0] 0 HASH_ALG_BLAKE256 =
  Ret (Some (z2be 32 0x0CE8D4EF4DD7CD8D62DFDED9D4EDB0A774AE6A41929A74DA23109E8F11139C87)).
Proof. vm_compute. reflexivity. Qed.
(** The salted and truncated variants of the packages. *)
Theorem C34_blake_salted : forall wide small salt m, bytes_ok salt -> bytes_ok m -> 8 * Z.of_nat (length m) < 2 ^ 64 ->
  match bnew_salt (params_of wide) small salt with
  | Some d => once (blake_impl (params_of wide) d) m
              = Ret (BlakeSpec.hash (variant_of wide small) (BlakeSpec.salt_words (variant_of wide small) salt) m)
  | None => length salt <> (4 * BlakeSpec.v_bytes (variant_of wide small))%nat
  end.
Proof.
  intros wide small salt m Os Om L. destruct (bnew_salt _ small salt) as [d|] eqn:E.
  - destruct (salted wide small salt d Os E) as (Ls & F & ->). destruct (blake_refines wide small _ Ls F) as (R & HR & _).
    exact (once_eq _ _ _ _ HR m Om L).
  - unfold bnew_salt in E. destruct (Nat.eqb_spec (length salt) (4 * bp_wb (params_of wide))) as [|N]; [discriminate|].
    destruct wide, small; exact N.
Qed.
Print Assumptions C34_blake_salted.

(** C35: Keccak and SHA-3. *)
Theorem C35_sha3_standard : forall (H : stdhash) m len, bytes_ok m ->
  Hash H m len HASH_ALG_SHA3_256 = Ret (Some (Sha3Spec.sha3_256 m)) /\
  Hash H m len HASH_ALG_SHA3_512 = Ret (Some (Sha3Spec.sha3_512 m)) /\
  Hash H m len HASH_ALG_KECCAK256 = Ret (Some (Sha3Spec.keccak_256 m)) /\
  Hash H m len HASH_ALG_KECCAK512 = Ret (Some (Sha3Spec.keccak_512 m)).
Proof.
  intros H m len Ok.
  change (Hash H m len HASH_ALG_SHA3_256) with (some_of (once (sha3_impl (knew 136 32 0x06)) m)).
  change (Hash H m len HASH_ALG_SHA3_512) with (some_of (once (sha3_impl (knew 72 64 0x06)) m)).
  change (Hash H m len HASH_ALG_KECCAK256) with (some_of (once (sha3_impl (knew 136 32 0x01)) m)).
  change (Hash H m len HASH_ALG_KECCAK512) with (some_of (once (sha3_impl (knew 72 64 0x01)) m)).
  rewrite !once_sha3 by (try exact Ok; lia). repeat split; reflexivity.
Qed.
Print Assumptions C35_sha3_standard.
Theorem C35_sha3_other : forall m, bytes_ok m ->
  once (sha3_impl New224) m = Ret (Sha3Spec.sha3_224 m) /\ once (sha3_impl New384) m = Ret (Sha3Spec.sha3_384 m).
Proof. intros m Ok. unfold New224, New384. rewrite !once_sha3 by (try exact Ok; lia). split; reflexivity. Qed.
Print Assumptions C35_sha3_other.
(** SHAKE: any Writes, then any Reads. *)
Theorem C35_shake_standard : forall ps ns, Forall bytes_ok ps ->
  (exists d, writes NewShake128 ps = Some d /\
     concat (snd (reads d ns)) = Sha3Spec.shake128 (concat ps) (list_sum ns) /\ map (@length Z) (snd (reads d ns)) = ns) /\
  (exists d, writes NewShake256 ps = Some d /\
     concat (snd (reads d ns)) = Sha3Spec.shake256 (concat ps) (list_sum ns) /\ map (@length Z) (snd (reads d ns)) = ns).
Proof.
  intros ps ns Ops. split.
  - apply (kstream_read 168 0 0x1f); [lia|lia|exact Ops].
  - apply (kstream_read 136 0 0x1f); [lia|lia|exact Ops].
Qed.
Print Assumptions C35_shake_standard.
Example C35_example :
  Hash demo_std abc 0 HASH_ALG_SHA3_256 = Ret (Some (z2be 32 0x3a985da74fe225b2045c172d6bd390bd855f086e3e9d525b46bfe24511431532)) /\
  Hash demo_std abc 0 HASH_ALG_KECCAK256 = Ret (Some (z2be 32 0x4e03657aea45a94fc7d47ba826c8d667c0d1e6e33a64a036ec44f58fa12d6c45)).
Proof. vm_compute. split; reflexivity. Qed.

(** C36: BLAKE2s. *)
Theorem C36_blake2s_standard : forall nn key m, 1 <= nn <= 32 -> (length key <= 32)%nat -> bytes_ok m ->
  exists d, new2s nn key = Some d /\ once (blake2s_impl d) m = Ret (BlakeSpec.mac2s nn key m).
Proof.
  intros nn key m Hn Hk Ok. destruct (new2s nn key) as [d|] eqn:E.
  - exists d. split; [reflexivity|]. exact (once_eq _ _ _ _ (blake2s_refines nn key d Hn E) m Ok I).
  - unfold new2s in E. rewrite (proj2 (Z.eqb_neq nn 0)), (proj2 (Z.ltb_ge 32 nn)), (proj2 (Nat.ltb_ge 32 (length key))) in E by lia. discriminate.
Qed.
Print Assumptions C36_blake2s_standard.
Theorem C36_hash_blake2s : forall (H : stdhash) m len, bytes_ok m -> 1 <= len <= 32 ->
  Hash H m len HASH_ALG_BLAKE2S = Ret (Some (BlakeSpec.hash2s len m)).
Proof.
  intros H m len Ok Hl. change (Hash H m len HASH_ALG_BLAKE2S) with
    (match new2s (u8 len) [] with Some d => some_of (once (blake2s_impl d) m) | None => Panic end).
  unfold u8. rewrite Z.mod_small by lia.
  destruct (C36_blake2s_standard len [] m Hl ltac:(cbn [length]; lia) Ok) as (d & -> & E). rewrite E. reflexivity.
Qed.
Print Assumptions C36_hash_blake2s.
Example C36_example : Hash demo_std abc 32 HASH_ALG_BLAKE2S =
  Ret (Some (z2be 32 0x508c5e8c327c14e2e1a72ba34eeb452f37458b209ed63a294d999b4c86675982)).
Proof. vm_compute. reflexivity. Qed.

(** C37: the composite hashes, HMAC and the identifiers. *)
Theorem C37_composites : forall (H : stdhash) m len, bytes_ok m ->
  Hash H m len HASH_ALG_HASH160 = Ret (Some (std_ripemd160 H (std_sha256 H m))) /\
  Hash H m len HASH_ALG_DOUBLE_SHA256 = Ret (Some (std_sha256 H (std_sha256 H m))) /\
  Hash H m len HASH_ALG_KECCAK256_RIPEMD160 = Ret (Some (std_ripemd160 H (Sha3Spec.keccak_256 m))) /\
  Hash H m len HASH_ALG_SHA3_256_RIPEMD160 = Ret (Some (std_ripemd160 H (Sha3Spec.sha3_256 m))) /\
  Hash H m len HASH_ALG_SHA256 = Ret (Some (std_sha256 H m)) /\
  Hash H m len HASH_ALG_SHA512 = Ret (Some (std_sha512 H m)) /\
  Hash H m len HASH_ALG_SHA1 = Ret (Some (std_sha1 H m)) /\
  Hash H m len HASH_ALG_MD4 = Ret (Some (std_md4 H m)) /\
  Hash H m len HASH_ALG_MD5 = Ret (Some (std_md5 H m)) /\
  Hash H m len HASH_ALG_RIPEMD160 = Ret (Some (std_ripemd160 H m)) /\
  Hash H m len HASH_ALG_BLAKE2B = Ret (match std_blake2b H len with Some f => Some (f m) | None => None end).
Proof.
  intros H m len Ok.
  change (Hash H m len HASH_ALG_KECCAK256_RIPEMD160) with (twice (sha3_impl (knew 136 32 0x01)) (ripemd160_impl H) m).
  change (Hash H m len HASH_ALG_SHA3_256_RIPEMD160) with (twice (sha3_impl (knew 136 32 0x06)) (ripemd160_impl H) m).
  unfold twice. rewrite !once_sha3 by (try exact Ok; lia).
  repeat split; try reflexivity.
  change (Hash H m len HASH_ALG_BLAKE2B) with (match std_blake2b H len with Some f => some_of (once (std_impl f 128) m) | None => Ret None end).
  destruct (std_blake2b H len); reflexivity.
Qed.
Print Assumptions C37_composites.
Definition digests (f : bytes -> bytes) (n : nat) : Prop := forall m, bytes_ok (f m) /\ length (f m) = n.
Theorem C37_hmac : forall (H : stdhash) key m, digests (std_sha256 H) 32 -> digests (std_sha512 H) 64 -> bytes_ok key -> bytes_ok m ->
  Hmac H key m HMAC_SHA256_ALG = Ret (Some (hmac (std_sha256 H) 64 key m)) /\
  Hmac H key m HMAC_SHA512_ALG = Ret (Some (hmac (std_sha512 H) 128 key m)) /\
  Hmac H key m HMAC_SM3_ALG = Ret (Some (hmac SM3Spec.hash 64 key m)).
Proof.
  intros H key m D2 D5 Ok Om.
  change (Hmac H key m HMAC_SHA256_ALG) with (some_of (go_hmac (std_impl (std_sha256 H) 64) key m)).
  change (Hmac H key m HMAC_SHA512_ALG) with (some_of (go_hmac (std_impl (std_sha512 H) 128) key m)).
  change (Hmac H key m HMAC_SM3_ALG) with (some_of (go_hmac sm3_impl key m)).
  rewrite (go_hmac_eq _ _ _ (std_usable (std_sha256 H) 64) (fun x => proj1 (D2 x))); [|intros x; cbn [std_impl hbs]; rewrite (proj2 (D2 x)); lia|exact Ok|exact Om].
  rewrite (go_hmac_eq _ _ _ (std_usable (std_sha512 H) 128) (fun x => proj1 (D5 x))); [|intros x; cbn [std_impl hbs]; rewrite (proj2 (D5 x)); lia|exact Ok|exact Om].
  rewrite (go_hmac_eq _ _ _ sm3_usable hash_ok); [|intros x; cbn [sm3_impl hbs]; rewrite hash_length; lia|exact Ok|exact Om].
  repeat split; reflexivity.
Qed.
Print Assumptions C37_hmac.
Theorem C37_unknown : forall (H : stdhash) key m len t,
  (~ 0xA0000000 <= t <= 0xA0000012 -> Hash H m len t = Ret None) /\
  (~ 0x50505050 <= t <= 0x50505052 -> Hmac H key m t = Ret None).
Proof.
  intros H key m len t. split; intros Ht.
  - unfold Hash. repeat match goal with |- context [t =? ?c] => rewrite (proj2 (Z.eqb_neq t c)) by (vm_compute (c); clear - Ht; intros ->; apply Ht; split; vm_compute; discriminate) end.
    reflexivity.
  - unfold Hmac. repeat match goal with |- context [t =? ?c] => rewrite (proj2 (Z.eqb_neq t c)) by (clear - Ht; intros ->; apply Ht; split; vm_compute; discriminate) end.
    reflexivity.
Qed.
Print Assumptions C37_unknown.
Example C37_example : exists H, digests (std_sha256 H) 32 /\ digests (std_sha512 H) 64 /\
  Hmac H abc abc HMAC_SM3_ALG = Ret (Some (hmac SM3Spec.hash 64 abc abc)).
Proof.
  set (H := Build_stdhash (fun m => m) (fun m => m) (fun m => m) (fun m => z2be 32 (be2z m)) (fun m => z2be 64 (be2z m)) (fun m => m) (fun _ => None)).
  exists H. assert (D2 : digests (std_sha256 H) 32) by (intros m; split; [apply z2be_ok|apply z2be_length]).
  assert (D5 : digests (std_sha512 H) 64) by (intros m; split; [apply z2be_ok|apply z2be_length]).
  split; [exact D2|]. split; [exact D5|]. apply (C37_hmac H abc abc D2 D5 abc_ok abc_ok).
Qed.

(** C62: a clone of a SHAKE continues with the same output. *)
Definition clone_continues (d0 : sponge) : Prop := forall ps ns n, Forall bytes_ok ps ->
  exists d d', writes d0 ps = Some d /\ kclone (fst (reads d ns)) = Some d' /\
    snd (kread d' n) = snd (kread (fst (reads d ns)) n).
Lemma first_read d c ns : k_sq d = false -> k_sq (pad_and_permute d) = true -> reads d (c :: ns) = reads (pad_and_permute d) (c :: ns).
Proof. intros E1 E2. cbn [reads]. unfold kread. rewrite E1, E2. reflexivity. Qed.
Theorem C62_shake_clone_refuted : ~ clone_continues NewShake256.
Proof.
  intros H. destruct (H [] [1%nat] 1%nat ltac:(constructor)) as (d & d' & E & C & _).
  cbn [writes] in E. apply some_inj in E. subst d. revert C.
  assert (H0 : holds 136 0 0x1f NewShake256 []) by (apply (holds_new 136 0 0x1f); lia).
  assert (P : at_pos 136 0 0x1f (final 136 0x1f []) (pad_and_permute NewShake256) 0) by (apply (pad_at 136 0 0x1f); [lia|lia|exact H0|constructor]).
  rewrite (first_read NewShake256 1 []); [|reflexivity|apply P].
  destruct (reads_at 136 0 0x1f ltac:(lia) ltac:(lia) (final 136 0x1f []) 1 [1%nat] (pad_and_permute NewShake256) 0) as (A & _).
  { apply (final_good 136 0 0x1f); [lia|lia|constructor]. }
  { exact P. }
  { cbn [list_sum fold_right]. lia. }
  revert A. generalize (fst (reads (pad_and_permute NewShake256) [1%nat])). intros d A.
  destruct A as (A1 & _ & _ & A4 & _ & A6 & _).
  unfold kclone. rewrite A4, A1, A6. discriminate.
Qed.
Print Assumptions C62_shake_clone_refuted.
Theorem C62_shake_clone_partial : clone_continues NewShake128 /\
  (forall d0 ps d, In d0 [NewShake128; NewShake256] -> Forall bytes_ok ps -> writes d0 ps = Some d -> kclone d = Some d).
Proof.
  split.
  - intros ps ns n Ops. destruct (holds_writes 168 0 0x1f ltac:(lia) ltac:(lia) ps NewShake128 [] (holds_new 168 0 0x1f ltac:(lia) ltac:(lia)) ltac:(constructor) Ops)
      as (d & E & Hd). cbn [app] in Hd. exists d. destruct ns as [|c ns].
    + exists d. cbn [reads fst]. split; [exact E|]. split; [|reflexivity]. unfold kclone. rewrite (proj1 (proj2 (proj2 (proj2 Hd)))). reflexivity.
    + pose proof (concat_ok ps Ops) as Oc.
      assert (P : at_pos 168 0 0x1f (final 168 0x1f (concat ps)) (pad_and_permute d) 0) by (apply (pad_at 168 0 0x1f); [lia|lia|exact Hd|exact Oc]).
      assert (ER : reads d (c :: ns) = reads (pad_and_permute d) (c :: ns)) by (apply first_read; [apply Hd|apply P]).
      rewrite ER. set (N := list_sum (c :: ns)).
      destruct (reads_at 168 0 0x1f ltac:(lia) ltac:(lia) (final 168 0x1f (concat ps)) (N / 168 + 1) (c :: ns) (pad_and_permute d) 0) as (A & _).
      * apply (final_good 168 0 0x1f); [lia|lia|exact Oc].
      * exact P.
      * fold N. pose proof (Nat.div_mod N 168 ltac:(lia)). pose proof (Nat.mod_upper_bound N 168 ltac:(lia)). lia.
      * exists (fst (reads (pad_and_permute d) (c :: ns))). split; [exact E|]. split; [|reflexivity].
        exact (clone_at 168 0 0x1f ltac:(lia) ltac:(lia) _ _ _ eq_refl A).
  - intros d0 ps d H0 Ops E.
    assert (W : forall r, (2 <= r <= 168)%nat -> writes (knew r 0 0x1f) ps = Some d -> k_sq d = false).
    { intros r Hr E'. destruct (holds_writes r 0 0x1f Hr ltac:(lia) ps (knew r 0 0x1f) [] (holds_new r 0 0x1f Hr ltac:(lia)) ltac:(constructor) Ops)
        as (d2 & E2 & Hd). assert (X : d = d2) by congruence. rewrite X. apply Hd. }
    unfold kclone. cbn [In] in H0. destruct H0 as [<-|[<-|[]]].
    + rewrite (W 168%nat ltac:(lia) E). reflexivity.
    + rewrite (W 136%nat ltac:(lia) E). reflexivity.
Qed.
Print Assumptions C62_shake_clone_partial.

(** C63: Hash never crashes. *)
Theorem C63_hash_never_crashes_refuted : forall (H : stdhash) m, Hash H m 33 HASH_ALG_BLAKE2S = Panic.
Proof. reflexivity. Qed.
Print Assumptions C63_hash_never_crashes_refuted.
(** A length above 255 is taken modulo 256. *)
Theorem C63_hash_length_refuted : forall (H : stdhash) m, bytes_ok m -> Hash H m 288 HASH_ALG_BLAKE2S = Hash H m 32 HASH_ALG_BLAKE2S.
Proof. reflexivity. Qed.
Print Assumptions C63_hash_length_refuted.
Theorem C63_hash_never_crashes_partial : forall (H : stdhash) m len t, bytes_ok m -> 0 <= len < 2 ^ 16 ->
  (t = HASH_ALG_BLAKE2S -> len mod 256 <= 32) -> Hash H m len t <> Panic.
Proof.
  intros H m len t Ok Hl Ht. unfold Hash.
  assert (S : forall r out ds, (2 <= r <= 168)%nat -> 0 <= ds < 128 -> once (sha3_impl (knew r out ds)) m <> Panic).
  { intros r out ds Hr Hd. rewrite once_sha3 by assumption. discriminate. }
  assert (B : forall o : outcome bytes, o <> Panic -> some_of o <> Panic) by (intros [x|]; [discriminate|contradiction]).
  assert (D : forall (o : outcome bytes) f, o <> Panic -> some_of (bindo o (once (std_impl f 64))) <> Panic) by (intros [x|] f; [discriminate|contradiction]).
  repeat match goal with |- (if t =? ?c then _ else _) <> Panic => destruct (Z.eqb_spec t c) end; try discriminate;
    try (apply B; apply S; lia); try (apply D; apply S; lia).
  - destruct (std_blake2b H len); discriminate.
  - assert (E : exists d, new2s (u8 len) [] = Some d).
    { unfold new2s, u8. pose proof (Z.mod_pos_bound len (2 ^ 8) ltac:(lia)). specialize (Ht e). change (2 ^ 8) with 256 in *.
      destruct (Z.eqb_spec (len mod 256) 0); [eexists; reflexivity|]. rewrite (proj2 (Z.ltb_ge _ _) Ht). eexists. reflexivity. }
    destruct E as (d & ->). discriminate.
Qed.
Print Assumptions C63_hash_never_crashes_partial.
