(** Hash and Hmac, and histories of calls on the hash objects. *)
From Coq Require Import ZArith List Bool Lia.
From Verif Require Import Base Words ModelBlakeCode ModelBlake ModelSha3Code ModelSha3 ModelSM3 ModelHash
  SpecHash SpecSM3 SpecBlake SpecSha3 ProofSM3 ProofBlakeC ProofBlake ProofBlake2s ProofSha3F ProofSha3.
Import ListNotations HashSpec.
Open Scope Z_scope.

(** ** Histories *)
Fixpoint history (I : himpl) (s : hst I) (cs : list call) : outcome (list bytes) :=
  match cs with
  | [] => Ret []
  | Write p :: cs => bindo (hwrite I s p) (fun s => history I s cs)
  | Sum inp :: cs => bindo (hsum I s inp) (fun r => bindo (history I (fst r) cs) (fun os => Ret (snd r :: os)))
  | Reset :: cs => history I (hreset I s) cs
  end.

(** An object behaves as the hash h on messages satisfying P if a relation to the
    message written so far is kept by every call. *)
Record refines (I : himpl) (h : bytes -> bytes) (P : bytes -> Prop) (R : hst I -> bytes -> Prop) : Prop := {
  ref_new : R (hnew I) [];
  ref_write : forall s m p, R s m -> bytes_ok m -> bytes_ok p -> exists s', hwrite I s p = Ret s' /\ R s' (m ++ p);
  ref_sum : forall s m inp, R s m -> bytes_ok m -> P m -> exists s', hsum I s inp = Ret (s', inp ++ h m) /\ R s' m;
  ref_reset : forall s m, R s m -> R (hreset I s) []
}.
Lemma history_eq I h P R : refines I h P R -> forall cs s m, R s m -> bytes_ok m ->
  Forall call_ok cs -> Forall P (summed m cs) -> history I s cs = Ret (answers h m cs).
Proof.
  intros HR. induction cs as [|c cs IH]; intros s m Hs Om Oc Hp; [reflexivity|].
  inversion Oc; subst. destruct c as [p|inp|]; cbn [history answers summed call_ok] in *.
  - destruct (ref_write _ _ _ _ HR s m p Hs Om) as (s' & -> & H'); [assumption|]. cbn [bindo]. apply IH; try assumption. now apply bytes_ok_app.
  - inversion Hp; subst. destruct (ref_sum _ _ _ _ HR s m inp Hs Om) as (s' & -> & H'); [assumption|]. cbn [bindo fst snd].
    rewrite (IH s' m) by assumption. reflexivity.
  - apply IH; try assumption; [now apply (ref_reset _ _ _ _ HR s m)|constructor].
Qed.
Lemma history_new I h P R : refines I h P R -> forall cs, Forall call_ok cs -> Forall P (summed [] cs) ->
  history I (hnew I) cs = Ret (answers h [] cs).
Proof. intros HR cs H1 H2. apply (history_eq I h P R HR); try assumption; [apply HR|constructor]. Qed.
Lemma once_eq I h P R : refines I h P R -> forall m, bytes_ok m -> P m -> once I m = Ret (h m).
Proof.
  intros HR m Om Pm. unfold once. destruct (ref_write _ _ _ _ HR _ [] m (ref_new _ _ _ _ HR) ltac:(constructor) Om) as (s & -> & Hs).
  cbn [bindo app] in *. destruct (ref_sum _ _ _ _ HR s m [] Hs Om Pm) as (s' & -> & _). reflexivity.
Qed.

(** ** The objects *)
Lemma sha3_refines r out ds : (2 <= r <= 168)%nat -> 0 <= ds < 128 ->
  refines (sha3_impl (knew r out ds)) (fun m => Sha3Spec.sponge r ds m out) (fun _ => True) (holds r out ds).
Proof.
  intros Hr Hds. split; cbn [sha3_impl hst hnew hwrite hsum hreset].
  - now apply holds_new.
  - intros s m p H Om Op. destruct (holds_write r out ds Hr Hds s m p H Om Op) as (s' & -> & H'). exists s'. split; [reflexivity|exact H'].
  - intros s m inp H Om _. rewrite (sum_holds r out ds Hr Hds s m inp H Om). exists s. split; [reflexivity|exact H].
  - intros s m (H1 & H2 & H3 & _). unfold kreset. rewrite H1, H2, H3. now apply (holds_new r out ds).
Qed.
Definition short (m : bytes) : Prop := 8 * Z.of_nat (length m) < 2 ^ 64.
Lemma blake2s_refines nn key d : 1 <= nn <= 32 -> new2s nn key = Some d ->
  refines (blake2s_impl d) (BlakeSpec.mac2s nn key) (fun _ => True) (mholds key nn).
Proof.
  intros Hn Hd. split; cbn [blake2s_impl hst hnew hwrite hsum hreset].
  - now apply mholds_new.
  - intros s m p H _ _. eexists. split; [reflexivity|]. now apply mholds_write.
  - intros s m inp H _ _. rewrite (msum_eq key nn s m inp Hn H). exists s. split; [reflexivity|exact H].
  - intros s m H. apply (mholds_reset key nn s m Hn); [|exact H].
    unfold new2s in Hd. destruct (32 <? _); [discriminate|]. destruct (Nat.ltb_spec 32 (length key)); [discriminate|assumption].
Qed.
Lemma std_refines f bs : refines (std_impl f bs) f (fun _ => True) (fun s m => s = m).
Proof.
  split; cbn [std_impl hst hnew hwrite hsum hreset]; try reflexivity.
  - intros s m p -> _ _. exists (m ++ p). split; reflexivity.
  - intros s m inp -> _ _. exists m. split; reflexivity.
Qed.

Lemma sm3_holds_new : ProofSM3.holds sm3_new [].
Proof. exact ProofSM3.holds_new. Qed.
Lemma blake_refines wide small s : length s = 4%nat -> Forall (word (bp_W (params_of wide))) s ->
  exists R, refines (blake_impl (params_of wide) (with_salt (params_of wide) small s))
    (BlakeSpec.hash (variant_of wide small) s) short R /\ (forall d d' m, R d m -> R d' m -> d = d').
Proof.
  intros Ls Fs. destruct (blake_all wide small s Ls Fs) as (R & H1 & H2 & H3 & H4 & H5). exists R. split; [|exact H5].
  split; cbn [blake_impl hst hnew hwrite hsum hreset].
  - exact H1.
  - intros d m p H _ _. eexists. split; [reflexivity|]. now apply H2.
  - intros d m inp H _ L. rewrite (H3 d m inp H L). exists d. split; [reflexivity|exact H].
  - exact H4.
Qed.
(** The salt as the code reads it. *)
Lemma bsalt_eq P s : bsalt P s = map be2z (blocks (bp_wb P) 4 s).
Proof. unfold bsalt. rewrite blocks_map, map_map. reflexivity. Qed.
Lemma salt_ok wide s : bytes_ok s -> length (bsalt (params_of wide) s) = 4%nat /\ Forall (word (bp_W (params_of wide))) (bsalt (params_of wide) s).
Proof.
  intros Ok. split; [reflexivity|]. unfold bsalt. apply Forall_forall. intros x Hx. apply in_map_iff in Hx. destruct Hx as (i & <- & _).
  pose proof (be2z_bound _ (bytes_ok_firstn (bp_wb (params_of wide)) _ (bytes_ok_skipn (bp_wb (params_of wide) * i) s Ok))) as B.
  split; [apply B|]. eapply Z.lt_le_trans; [apply B|].
  transitivity (256 ^ Z.of_nat (bp_wb (params_of wide))); [apply Z.pow_le_mono_r; [lia|rewrite firstn_length; lia]|].
  destruct wide; vm_compute; discriminate.
Qed.

(** ** Splitting *)
Definition at_once (I : himpl) (m : bytes) : outcome (list bytes) := history I (hnew I) [Write m; Sum []].
Definition in_parts (I : himpl) (ps : list bytes) : outcome (list bytes) := history I (hnew I) (map Write ps ++ [Sum []]).
Lemma parts_state I h P R : refines I h P R -> forall ps s m, R s m -> bytes_ok m -> Forall bytes_ok ps ->
  exists s', history I s (map Write ps ++ [Sum []]) = history I s' [Sum []] /\ R s' (m ++ concat ps).
Proof.
  intros HR. induction ps as [|p ps IH]; intros s m Hs Om Ops.
  - exists s. cbn [map app concat]. rewrite app_nil_r. split; [reflexivity|exact Hs].
  - inversion Ops; subst. cbn [map app concat history]. destruct (ref_write _ _ _ _ HR s m p Hs Om) as (s' & -> & H'); [assumption|].
    cbn [bindo]. destruct (IH s' (m ++ p)) as (s2 & E & HH); try assumption; [now apply bytes_ok_app|].
    exists s2. rewrite app_assoc. split; [exact E|exact HH].
Qed.
Lemma concat_ok ps : Forall bytes_ok ps -> bytes_ok (concat ps).
Proof. induction 1; cbn [concat]; [constructor|now apply bytes_ok_app]. Qed.
(** A relation that determines the state. *)
Lemma parts_det I h P R : refines I h P R -> (forall s s' m, R s m -> R s' m -> s = s') ->
  forall ps, Forall bytes_ok ps -> in_parts I ps = at_once I (concat ps).
Proof.
  intros HR HD ps Ops. unfold in_parts, at_once.
  destruct (parts_state I h P R HR ps (hnew I) [] (ref_new _ _ _ _ HR) ltac:(constructor) Ops) as (s1 & E1 & R1).
  destruct (parts_state I h P R HR [concat ps] (hnew I) [] (ref_new _ _ _ _ HR) ltac:(constructor)) as (s2 & E2 & R2).
  { constructor; [now apply concat_ok|constructor]. }
  cbn [map app concat] in *. rewrite app_nil_r in R2. rewrite E1, E2. now rewrite (HD s1 s2 _ R1 R2).
Qed.
(** A hash that is right for every message. *)
Lemma parts_total I h R : refines I h (fun _ => True) R ->
  forall ps, Forall bytes_ok ps -> in_parts I ps = at_once I (concat ps).
Proof.
  intros HR ps Ops. unfold in_parts, at_once.
  assert (S : forall cs, Forall (fun _ => True) (summed [] cs)) by (intros cs; apply Forall_forall; trivial).
  assert (O0 : call_ok (Sum [])) by (cbn [call_ok]; constructor).
  assert (O1 : Forall call_ok (map Write ps ++ [Sum []])).
  { apply Forall_app. split; [|constructor; [exact O0|constructor]]. apply Forall_map. exact Ops. }
  assert (O2 : Forall call_ok [Write (concat ps); Sum []]).
  { constructor; [now apply concat_ok|constructor; [exact O0|constructor]]. }
  rewrite (history_new I h _ R HR _ O1 (S _)), (history_new I h _ R HR _ O2 (S _)).
  f_equal. cbn [answers app].
  assert (A : forall m, answers h m (map Write ps ++ [Sum []]) = [h (m ++ concat ps)]).
  { clear. induction ps as [|p ps IH]; intros m; cbn [map app concat answers]; [now rewrite app_nil_r|]. rewrite IH, app_assoc. reflexivity. }
  rewrite A. reflexivity.
Qed.
(** SM3 is right for the first Sum. *)
Lemma sm3_parts ps : Forall bytes_ok ps -> in_parts sm3_impl ps = at_once sm3_impl (concat ps).
Proof.
  intros Ops. unfold at_once, in_parts.
  assert (A : forall s, history sm3_impl s (map Write ps ++ [Sum []]) = Ret [snd (sm3_sum (fold_left sm3_write ps s) [])]).
  { clear. induction ps as [|p ps IH]; intros s; [reflexivity|]. cbn [map app history hwrite sm3_impl bindo fold_left]. apply IH. }
  rewrite A. change (history sm3_impl (hnew sm3_impl) [Write (concat ps); Sum []])
    with (Ret [snd (sm3_sum (sm3_write sm3_new (concat ps)) [])]). cbn [sm3_impl hnew].
  rewrite (sm3_stream ps [] Ops ltac:(constructor)).
  rewrite (sum_eq (sm3_write sm3_new (concat ps)) (concat ps) []); [reflexivity|now apply concat_ok|constructor|].
  apply (ProofSM3.holds_write sm3_new [] (concat ps)); [constructor|now apply concat_ok|exact ProofSM3.holds_new].
Qed.

(** ** HMAC needs of its hash only the first Sum(nil) after New or Reset. *)
Record usable (I : himpl) (h : bytes -> bytes) (R : hst I -> bytes -> Prop) : Prop := {
  use_new : R (hnew I) [];
  use_write : forall s m p, R s m -> bytes_ok m -> bytes_ok p -> exists s', hwrite I s p = Ret s' /\ R s' (m ++ p);
  use_sum : forall s m, R s m -> bytes_ok m -> exists s', hsum I s [] = Ret (s', h m);
  use_reset : forall s, R (hreset I s) []
}.
Lemma xorc_ok c l : 0 <= c < 256 -> bytes_ok l -> bytes_ok (xorc c l).
Proof.
  intros Hc Hl. unfold xorc. apply Forall_map. apply Forall_forall. intros x Hx.
  pose proof (proj1 (Forall_forall _ _) Hl x Hx) as B. exact (lxor_bound 8 ltac:(lia) x c B Hc).
Qed.
Theorem go_hmac_eq I h R : usable I h R -> (forall m, bytes_ok (h m)) -> (forall m, (length (h m) <= hbs I)%nat) ->
  forall key data, bytes_ok key -> bytes_ok data -> go_hmac I key data = Ret (hmac h (hbs I) key data).
Proof.
  intros U Hok HL key data Ok Od. unfold go_hmac. cbv zeta.
  assert (Onil : bytes_ok []) by constructor.
  set (bs := hbs I) in *.
  assert (K : exists o, (if Nat.ltb bs (length key) then bindo (hwrite I (hnew I) key) (fun outer => hsum I outer []) else Ret (hnew I, key))
    = Ret (o, if Nat.ltb bs (length key) then h key else key)).
  { destruct (Nat.ltb bs (length key)); [|exists (hnew I); reflexivity].
    destruct (use_write _ _ _ U (hnew I) [] key (use_new _ _ _ U) Onil Ok) as (s & -> & Hs). cbn [bindo app] in *.
    destruct (use_sum _ _ _ U s key Hs Ok) as (s' & ->). exists s'. reflexivity. }
  destruct K as (o & ->). cbn [bindo].
  set (k := if Nat.ltb bs (length key) then h key else key).
  assert (Lk : (length k <= bs)%nat) by (unfold k; destruct (Nat.ltb_spec bs (length key)); [apply HL|assumption]).
  assert (Okk : bytes_ok k) by (unfold k; destruct (Nat.ltb bs (length key)); [apply Hok|exact Ok]).
  rewrite firstn_all2 by exact Lk. set (pad := k ++ repeat 0 (bs - length k)).
  assert (Op : bytes_ok pad).
  { apply bytes_ok_app; [exact Okk|]. apply Forall_forall. intros x Hx. apply repeat_spec in Hx. subst. split; lia. }
  pose proof (xorc_ok 0x36 pad ltac:(lia) Op) as Oi. pose proof (xorc_ok 0x5c pad ltac:(lia) Op) as Oo.
  destruct (use_write _ _ _ U (hnew I) [] _ (use_new _ _ _ U) Onil Oi) as (s1 & -> & H1). cbn [bindo app] in *.
  destruct (use_write _ _ _ U s1 _ data H1 Oi Od) as (s2 & -> & H2). cbn [bindo].
  destruct (use_sum _ _ _ U s2 _ H2 ltac:(now apply bytes_ok_app)) as (s3 & ->). cbn [bindo snd].
  destruct (use_write _ _ _ U (hreset I o) [] _ (use_reset _ _ _ U o) Onil Oo) as (s4 & -> & H4). cbn [bindo app] in *.
  destruct (use_write _ _ _ U s4 _ (h (xorc 0x36 pad ++ data)) H4 Oo (Hok _)) as (s5 & -> & H5). cbn [bindo].
  destruct (use_sum _ _ _ U s5 _ H5 ltac:(now apply bytes_ok_app)) as (s6 & ->). cbn [bindo snd]. reflexivity.
Qed.
Lemma sm3_usable : usable sm3_impl SM3Spec.hash ProofSM3.holds.
Proof.
  split; cbn [sm3_impl hst hnew hwrite hsum hreset].
  - exact ProofSM3.holds_new.
  - intros s m p H Om Op. eexists. split; [reflexivity|]. now apply ProofSM3.holds_write.
  - intros s m H Om. eexists. rewrite (surjective_pairing (sm3_sum s [])). rewrite (sum_eq s m [] Om ltac:(constructor) H), app_nil_r. reflexivity.
  - intros s. exact ProofSM3.holds_new.
Qed.
Lemma std_usable f bs : usable (std_impl f bs) f (fun s m => s = m).
Proof.
  split; cbn [std_impl hst hnew hwrite hsum hreset]; try reflexivity.
  - intros s m p -> _ _. exists (m ++ p). split; reflexivity.
  - intros s m -> _. exists m. reflexivity.
Qed.
Lemma once_sm3 m : bytes_ok m -> once sm3_impl m = Ret (SM3Spec.hash m).
Proof. intros Ok. change (once sm3_impl m) with (Ret (Sm3Sum m)). now rewrite Sm3Sum_spec. Qed.
Lemma once_std f bs m : once (std_impl f bs) m = Ret (f m).
Proof. reflexivity. Qed.
Lemma once_sha3 r out ds m : (2 <= r <= 168)%nat -> 0 <= ds < 128 -> bytes_ok m ->
  once (sha3_impl (knew r out ds)) m = Ret (Sha3Spec.sponge r ds m out).
Proof. intros Hr Hd Ok. exact (once_eq _ _ _ _ (sha3_refines r out ds Hr Hd) m Ok I). Qed.
Lemma once_blake wide m : bytes_ok m -> short m ->
  once (blake_impl (params_of wide) (bnew (params_of wide) false)) m = Ret (BlakeSpec.hash (variant_of wide false) BlakeSpec.no_salt m).
Proof.
  intros Ok L. assert (Z4 : Forall (word (bp_W (params_of wide))) [0; 0; 0; 0]).
  { destruct wide; apply words_dec; reflexivity. }
  destruct (blake_refines wide false [0; 0; 0; 0] eq_refl Z4) as (R & HR & _).
  exact (once_eq _ _ _ _ HR m Ok L).
Qed.
Lemma once_blake2s nn d m : 1 <= nn <= 32 -> new2s nn [] = Some d -> bytes_ok m -> once (blake2s_impl d) m = Ret (BlakeSpec.hash2s nn m).
Proof. intros Hn Hd Ok. exact (once_eq _ _ _ _ (blake2s_refines nn [] d Hn Hd) m Ok I). Qed.
