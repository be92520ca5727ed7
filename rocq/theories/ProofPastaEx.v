(** Poseidon evaluated on one message with the arithmetic of Mont63 (used for the example
    beside C46). *)
Require Import ZArith List Bool Lia Uint63.
Require Import Verif.Base Verif.Fp Verif.EC Verif.Curves Verif.SpecPasta Verif.Mont63.
Require Import Verif.ModelPastaCode Verif.ProofPastaF Verif.ProofPastaG Verif.ProofPastaP Verif.ProofPastaS.
Import ListNotations.
Open Scope Z_scope.

Section Eval.
Variable c : mctx.
Hypothesis Hok : mctx_ok c = true.
Local Notation p := (mc_p c).
Definition tri := (list int * list int * list int)%type.
Definition rel3 (s : tri) (l : list (fp p)) : Prop :=
  let '(a, b, d) := s in exists x y z, l = [x; y; z] /\ mrel c a x /\ mrel c b y /\ mrel c d z.
Definition bind {A B} (o : option A) (f : A -> option B) : option B := match o with Some x => f x | None => None end.
Lemma bind_some {A B} (o : option A) (f : A -> option B) r : bind o f = Some r -> exists x, o = Some x /\ f x = Some r.
Proof. destruct o as [x|]; [|discriminate]. intros H. exists x. split; [reflexivity | exact H]. Qed.
Definition e5 (a : list int) : option (list int) := bind (c_mul c a a) (fun b => bind (c_mul c b b) (fun d => c_mul c d a)).
Definition eadd (s k : tri) : option tri :=
  let '(a, b, d) := s in let '(x, y, z) := k in
  bind (madd a x) (fun a => bind (madd b y) (fun b => bind (madd d z) (fun d => Some (a, b, d)))).
Definition erow (t r : tri) : option (list int) :=
  let '(a, b, d) := t in let '(x, y, z) := r in
  bind (c_mul c a x) (fun a => bind (c_mul c b y) (fun b => bind (c_mul c d z) (fun d => bind (madd b d) (fun e => madd a e)))).
Definition esbox (s : tri) : option tri :=
  let '(a, b, d) := s in bind (e5 a) (fun a => bind (e5 b) (fun b => bind (e5 d) (fun d => Some (a, b, d)))).
Definition emix (M : tri * tri * tri) (s : tri) : option tri :=
  let '(r0, r1, r2) := M in bind (erow s r0) (fun a => bind (erow s r1) (fun b => bind (erow s r2) (fun d => Some (a, b, d)))).
Definition escale (C : list int) (s : tri) : option tri :=
  let '(a, b, d) := s in bind (c_mul c a C) (fun a => bind (c_mul c b C) (fun b => bind (c_mul c d C) (fun d => Some (a, b, d)))).
(** the round constants are given in another form, to be multiplied by C *)
Fixpoint eperm (C : list int) (M : tri * tri * tri) (ks : list tri) (s : tri) : option tri :=
  match ks with
  | [] => None
  | k :: ks => bind (escale C k) (fun k => bind (eadd s k) (fun s =>
      match ks with [] => Some s | _ => bind (esbox s) (fun s => bind (emix M s) (fun s => eperm C M ks s)) end))
  end.
Ltac bs H := repeat (apply bind_some in H; let x := fresh "v" in let E := fresh "E" in destruct H as (x & E & H)).
Lemma e5_ok a x r : mrel c a x -> e5 a = Some r -> mrel c r (pow5 p x).
Proof using Hok.
  intros A H. unfold e5 in H. bs H.
  pose proof (c_mul_rel c Hok _ _ _ _ _ A A E) as B. pose proof (c_mul_rel c Hok _ _ _ _ _ B B E0) as D. pose proof (c_mul_rel c Hok _ _ _ _ _ D A H) as R.
  replace (pow5 p x) with (fp_mul (fp_mul (fp_mul x x) (fp_mul x x)) x); [exact R|]. unfold pow5.
  rewrite <- (fp_of_val p x) at 1 2 3 4 5. rewrite <- !fp_of_mul. f_equal. ring.
Qed.
Lemma eadd_ok s k r l m : rel3 s l -> rel3 k m -> eadd s k = Some r -> rel3 r (add_vec p l m).
Proof using Hok.
  destruct s as [[a b] d], k as [[a' b'] d']. intros (x & y & z & -> & A & B & D) (x' & y' & z' & -> & A' & B' & D') H.
  unfold eadd in H. bs H. injection H as <-. do 3 eexists. split; [reflexivity|].
  split; [|split]; eapply madd_rel; eassumption.
Qed.
Lemma fp_add_0 (x : fp p) : fp_add x (fp_of p 0) = x.
Proof. rewrite <- (fp_of_val p x) at 1. rewrite <- fp_of_add, Z.add_0_r. apply fp_of_val. Qed.
Lemma erow_ok s k r l m : rel3 s l -> rel3 k m -> erow s k = Some r -> mrel c r (dot p l m).
Proof using Hok.
  destruct s as [[a b] d], k as [[a' b'] d']. intros (x & y & z & -> & A & B & D) (x' & y' & z' & -> & A' & B' & D') H.
  unfold erow in H. bs H. cbn [dot combine fold_right fst snd]. rewrite fp_add_0.
  eapply madd_rel; [| |exact H]; [|eapply madd_rel; [| |eassumption]]; eapply c_mul_rel; eassumption.
Qed.
Lemma esbox_ok s r l : rel3 s l -> esbox s = Some r -> rel3 r (map (pow5 p) l).
Proof using Hok.
  destruct s as [[a b] d]. intros (x & y & z & -> & A & B & D) H. unfold esbox in H. bs H. injection H as <-.
  do 3 eexists. split; [reflexivity|]. split; [|split]; eapply e5_ok; eassumption.
Qed.
Lemma emix_ok r0 r1 r2 m0 m1 m2 s r l : rel3 r0 m0 -> rel3 r1 m1 -> rel3 r2 m2 -> rel3 s l -> emix (r0, r1, r2) s = Some r -> rel3 r (mix p [m0; m1; m2] l).
Proof using Hok.
  intros R0 R1 R2 S H. unfold emix in H. bs H. injection H as <-.
  do 3 eexists. split; [reflexivity|]. split; [|split]; eapply erow_ok; eassumption.
Qed.
Definition relk (C : list int) (k : tri) (m : list (fp p)) : Prop := forall k', escale C k = Some k' -> rel3 k' m.
Lemma eperm_ok C r0 r1 r2 m0 m1 m2 : rel3 r0 m0 -> rel3 r1 m1 -> rel3 r2 m2 -> forall ks rks, Forall2 (relk C) ks rks ->
  forall s l r, rel3 s l -> eperm C (r0, r1, r2) ks s = Some r -> rel3 r (permute p [m0; m1; m2] rks l).
Proof using Hok.
  intros R0 R1 R2. induction 1 as [|k m ks rks K KS IH]; intros s l r S H; [discriminate|]. cbn [eperm] in H.
  apply bind_some in H. destruct H as (k' & Ek & H). apply bind_some in H. destruct H as (s' & Es & H).
  pose proof (eadd_ok _ _ _ _ _ S (K _ Ek) Es) as S'. destruct KS as [|k2 m2' ks rks K2 KS].
  - injection H as <-. exact S'.
  - apply bind_some in H. destruct H as (t & Et & H). apply bind_some in H. destruct H as (u & Eu & H).
    apply (IH u _ r); [|exact H]. eapply emix_ok; [exact R0 | exact R1 | exact R2 | | exact Eu]. eapply esbox_ok; eassumption.
Qed.
(** constants: l holds the words of a number z; times C it stands for z w *)
Definition normb (l : list int) : bool := (length l =? mc_n c)%nat && forallb (fun x => (x <=? mask)%uint63) l.
Lemma normb_ok l : normb l = true -> norm (mc_n c) l.
Proof. intros H. apply andb_true_iff in H as [H1 H2]. apply Nat.eqb_eq in H1. split; [exact H1 | exact (forallb_bnd l H2)]. Qed.
Definition rawb (k : tri) (z : Z * Z * Z) : bool :=
  let '(a, b, d) := k in let '(x, y, w) := z in
  normb a && normb b && normb d && (Mont63.lval a =? x) && (Mont63.lval b =? y) && (Mont63.lval d =? w).
Lemma scale_ok C w v a z r : mrel c C (fp_of p w) -> (mc_r c * w) mod p = v mod p -> norm (mc_n c) a -> Mont63.lval a = z ->
  c_mul c a C = Some r -> mrel c r (fp_of p (z * v)).
Proof using Hok.
  intros HC W N <- H. assert (A : mrel c a (fp_of p (Mont63.lval a * mc_r c))) by (split; [exact N | reflexivity]).
  pose proof (c_mul_rel c Hok _ _ _ _ _ A HC H) as R. rewrite <- fp_of_mul in R.
  replace (fp_of p (Mont63.lval a * v)) with (fp_of p (Mont63.lval a * mc_r c * w)); [exact R|].
  apply fp_of_eq. rewrite <- Z.mul_assoc, <- (Zmult_mod_idemp_r _ (Mont63.lval a)), W, Zmult_mod_idemp_r. reflexivity.
Qed.
Lemma raw_ok C w v k x y z : mrel c C (fp_of p w) -> (mc_r c * w) mod p = v mod p -> rawb k (x, y, z) = true ->
  relk C k [fp_of p (x * v); fp_of p (y * v); fp_of p (z * v)].
Proof using Hok.
  destruct k as [[a b] d]. intros HC W H k' Hk. unfold rawb in H. rewrite !andb_true_iff, !Z.eqb_eq in H.
  destruct H as (((((N1 & N2) & N3) & E1) & E2) & E3). unfold escale in Hk.
  apply bind_some in Hk. destruct Hk as (a' & A & Hk). apply bind_some in Hk. destruct Hk as (b' & B & Hk). apply bind_some in Hk. destruct Hk as (d' & D & Hk).
  injection Hk as <-. do 3 eexists. split; [reflexivity|].
  split; [exact (scale_ok C w v _ _ _ HC W (normb_ok _ N1) E1 A) | split; [exact (scale_ok C w v _ _ _ HC W (normb_ok _ N2) E2 B) | exact (scale_ok C w v _ _ _ HC W (normb_ok _ N3) E3 D)]].
Qed.
Lemma ctri_ok x y z : rel3 (c_of c x, c_of c y, c_of c z) [fp_of p x; fp_of p y; fp_of p z].
Proof using Hok. do 3 eexists. split; [reflexivity|]. split; [|split]; apply c_of_rel; exact Hok. Qed.
End Eval.

(** the context for the field of Pallas and the parameters *)
Definition pctx : mctx := Eval vm_compute in mk_mctx 10 pp.
Lemma pctx_ok : mctx_ok pctx = true. Proof. vm_compute. reflexivity. Qed.
Definition pw : Z := Eval vm_compute in (invp * 2 ^ 280) mod pp.
Definition pC : list int := Eval vm_compute in c_of pctx pw.
Lemma pC_ok : mrel pctx pC (fp_of pp pw).
Proof. replace pC with (c_of pctx pw) by (vm_compute; reflexivity). apply (c_of_rel pctx pctx_ok pw). Qed.
Lemma pw_ok : (mc_r pctx * pw) mod mc_p pctx = invp mod mc_p pctx. Proof. vm_compute. reflexivity. Qed.
Definition words3 (l : list (list Z)) : Z * Z * Z :=
  match l with [a; b; d] => (ProofPastaF.lval a, ProofPastaF.lval b, ProofPastaF.lval d) | _ => (0, 0, 0) end.
Definition raw3 (l : list (list Z)) : tri := let '(x, y, z) := words3 l in (limbs 10 x, limbs 10 y, limbs 10 z).
Definition pks : list tri := Eval vm_compute in map raw3 round_keys.
Definition pms : list tri := Eval vm_compute in map raw3 mds_matrix.
Fixpoint all2 {A B} (f : A -> B -> bool) (l : list A) (m : list B) : bool :=
  match l, m with [], [] => true | x :: l, y :: m => f x y && all2 f l m | _, _ => false end.
Definition len3 (l : list (list Z)) : bool := (length l =? 3)%nat.
Lemma raws_ok : forall ks rks, all2 (fun k l => len3 l && rawb pctx k (words3 l)) ks rks = true ->
  Forall2 (relk pctx pC) ks (map (map fe) rks).
Proof.
  induction ks as [|k ks IH]; intros [|l rks] H; try discriminate; [constructor|].
  cbn [all2] in H. apply andb_true_iff in H as [H1 H2]. cbn [map]. constructor; [|exact (IH _ H2)].
  apply andb_true_iff in H1 as [L H1]. destruct l as [|a [|b [|d [|]]]]; try discriminate L.
  exact (raw_ok pctx pctx_ok pC pw invp k _ _ _ pC_ok pw_ok H1).
Qed.
Lemma pks_ok : Forall2 (relk pctx pC) pks mina_rks.
Proof. apply raws_ok. vm_compute. reflexivity. Qed.
Lemma pms_raw : Forall2 (relk pctx pC) pms mina_mds.
Proof. apply raws_ok. vm_compute. reflexivity. Qed.
Definition scaled (k : tri) : tri := match escale pctx pC k with Some t => t | None => ([], [], []) end.
Definition M0 : tri := Eval vm_compute in scaled (nth 0 pms ([], [], [])).
Definition M1 : tri := Eval vm_compute in scaled (nth 1 pms ([], [], [])).
Definition M2 : tri := Eval vm_compute in scaled (nth 2 pms ([], [], [])).
Lemma forall2_3 {A B} (R : A -> B -> Prop) a b d l : Forall2 R [a; b; d] l -> exists x y z, l = [x; y; z] /\ R a x /\ R b y /\ R d z.
Proof.
  intros H. inversion H as [|? x ? l1 H1 G1]; subst. inversion G1 as [|? y ? l2 H2 G2]; subst. inversion G2 as [|? z ? l3 H3 G3]; subst.
  inversion G3; subst. exists x, y, z. repeat split; assumption.
Qed.
Lemma pms_ok : exists m0 m1 m2, mina_mds = [m0; m1; m2] /\ rel3 pctx M0 m0 /\ rel3 pctx M1 m1 /\ rel3 pctx M2 m2.
Proof.
  destruct (forall2_3 _ _ _ _ _ pms_raw) as (m0 & m1 & m2 & E & K0 & K1 & K2).
  exists m0, m1, m2. split; [exact E|]. split; [|split]; [apply K0 | apply K1 | apply K2]; vm_compute; reflexivity.
Qed.

(** Four elements absorbed two by two. *)
Definition esponge4 (s x y : tri) : option tri :=
  bind (eadd s x) (fun s => bind (eperm pctx pC (M0, M1, M2) pks s) (fun s => bind (eadd s y) (fun s => eperm pctx pC (M0, M1, M2) pks s))).
Lemma esponge4_ok s iv a b d e r : rel3 pctx s iv ->
  esponge4 s (c_of pctx a, c_of pctx b, c_of pctx 0) (c_of pctx d, c_of pctx e, c_of pctx 0) = Some r ->
  rel3 pctx r (sponge pp mina_rks mina_mds iv [fp_of pp a; fp_of pp b; fp_of pp d; fp_of pp e]).
Proof.
  intros S H. destruct pms_ok as (m0 & m1 & m2 & -> & K0 & K1 & K2). unfold esponge4 in H.
  apply bind_some in H. destruct H as (s1 & E1 & H). apply bind_some in H. destruct H as (s2 & E2 & H). apply bind_some in H. destruct H as (s3 & E3 & H).
  pose proof (eadd_ok pctx pctx_ok _ _ _ _ _ S (ctri_ok pctx pctx_ok a b 0) E1) as S1.
  pose proof (eperm_ok pctx pctx_ok pC M0 M1 M2 m0 m1 m2 K0 K1 K2 pks mina_rks pks_ok _ _ _ S1 E2) as S2.
  pose proof (eadd_ok pctx pctx_ok _ _ _ _ _ S2 (ctri_ok pctx pctx_ok d e 0) E3) as S3.
  exact (eperm_ok pctx pctx_ok pC M0 M1 M2 m0 m1 m2 K0 K1 K2 pks mina_rks pks_ok _ _ _ S3 H).
Qed.
Definition gy : Z := Eval vm_compute in py pallas (w_G pallas).
Definition ctri (x y z : Z) : tri := (c_of pctx x, c_of pctx y, c_of pctx z).
Definition fin : tri := Eval vm_compute in match esponge4 (ctri 0 1 0) (ctri 1 1 0) (ctri gy 1 0) with Some t => t | None => ([], [], []) end.
Lemma fin_ok : esponge4 (ctri 0 1 0) (ctri 1 1 0) (ctri gy 1 0) = Some fin.
Proof. vm_compute. reflexivity. Qed.
Definition e1 : Z := Eval vm_compute in c_val pctx (fst (fst fin)).
Lemma hash_fin : fval (poseidon pp mina_rks mina_mds [fp_of pp 0; fp_of pp 1; fp_of pp 0] [fp_of pp 1; fp_of pp 1; fp_of pp gy; fp_of pp 1]) = e1.
Proof.
  pose proof (esponge4_ok (ctri 0 1 0) [fp_of pp 0; fp_of pp 1; fp_of pp 0] 1 1 gy 1 fin (ctri_ok pctx pctx_ok 0 1 0) fin_ok) as R.
  unfold poseidon. generalize dependent (sponge pp mina_rks mina_mds [fp_of pp 0; fp_of pp 1; fp_of pp 0] [fp_of pp 1; fp_of pp 1; fp_of pp gy; fp_of pp 1]).
  intros l R. unfold fin in R. destruct R as (x & y & z & -> & A & _). cbn [nth]. apply (c_val_rel pctx) in A. 
  etransitivity; [symmetry; exact A|]. vm_compute. reflexivity.
Qed.
