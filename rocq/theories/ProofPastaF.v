(** The Montgomery arithmetic of /repo/pasta/pasta_fp.go and pasta_fq.go. *)
Require Import ZArith List Bool Lia.
Require Import Verif.ModelW64 Verif.ModelPastaCode Verif.ProofW64.
Import ListNotations.
Open Scope Z_scope.

(** The number a list of 64-bit limbs stands for, least significant first. *)
Fixpoint lval (l : list Z) : Z := match l with [] => 0 | d :: t => d + B64 * lval t end.
Definition word (v : Z) : Prop := 0 <= v < B64.
Definition limbs4 (l : list Z) : Prop := length l = 4%nat /\ Forall word l.

Lemma word_wb v : word v -> wb v (B64 - 1).
Proof. unfold word, wb. lia. Qed.
Lemma words_wb x : Forall word x -> Forall2 wb x (repeat (B64 - 1) (length x)).
Proof. induction 1; cbn [length repeat]; constructor; [apply word_wb; assumption | assumption]. Qed.
Lemma wb_words x b : Forall2 wb x b -> Forall word x.
Proof. induction 1; constructor; [unfold wb, word in *; lia | assumption]. Qed.
Lemma words_nth x n : Forall word x -> word (nth n x 0).
Proof.
  intros H. revert n. induction H; intros [|n]; cbn [nth]; try (split; [lia | reflexivity]); [assumption | apply IHForall].
Qed.

(** * Sums of registers *)
Fixpoint plin (ps : list poly) (l : list opd) : option poly :=
  match l with
  | [] => Some []
  | o :: t => match popd ps o, plin ps t with
              | Some a, Some b => Some (padd a (pscale B64 b))
              | _, _ => None
              end
  end.
Lemma plin_ok e ps l p : pok e ps -> plin ps l = Some p -> lval (map (oval e) l) = peval e p.
Proof.
  intros H. revert p. induction l as [|o t IH]; intros p E; cbn [plin map lval] in *.
  - apply some_inj in E. subst p. reflexivity.
  - destruct (popd ps o) as [a|] eqn:Eo; [|discriminate]. destruct (plin ps t) as [b|]; [|discriminate].
    apply some_inj in E. subst p. rewrite (IH b eq_refl), (popd_ok e ps o a H Eo), padd_ok, pscale_ok. reflexivity.
Qed.
Fixpoint pzero (ps : list poly) (l : list opd) : bool :=
  match l with
  | [] => true
  | R n :: t => match nth_error ps n with Some p => pdiv B64 p && pzero ps t | None => false end
  | _ => false
  end.
Lemma pzero_ok e ps l : pok e ps -> Forall word e -> pzero ps l = true -> lval (map (oval e) l) = 0.
Proof.
  intros H W. induction l as [|o t IH]; intros E; cbn [pzero map lval] in *; [reflexivity|].
  destruct o as [n| |]; try discriminate. destruct (nth_error ps n) as [p|] eqn:En; [|discriminate].
  apply andb_true_iff in E. destruct E as [E1 E2]. rewrite (IH E2). cbn [oval].
  apply (pdiv_ok e) in E1; [|reflexivity]. rewrite <- (H n p En) in E1.
  assert (K := words_nth e n W). rewrite Z.mod_small in E1 by exact K. rewrite E1. reflexivity.
Qed.

(** Check that the code computes numbers T, Q with 2^256 T = AB + P Q: the
    registers [zs] are zero and everything else is an identity of normal forms. *)
Definition mont_ok (nin : nat) (code : list ins) (P : Z) (qs zs ts la lb : list opd) : bool :=
  match brun (repeat (B64 - 1) nin) code, prun (pinit nin) code with
  | Some _, Some ps =>
      match plin ps qs, plin ps zs, plin ps ts, plin ps la, plin ps lb with
      | Some q, Some z, Some t, Some a, Some b =>
          match pmul a b with
          | Some AB =>
              match padd (pscale (2 ^ 256) t) (padd (pscale (- P) q) (padd (pscale (-1) AB) z)) with
              | [] => pzero ps zs
              | _ => false
              end
          | None => false
          end
      | _, _, _, _, _ => false
      end
  | _, _ => false
  end.
Lemma mont_ok_run nin code P qs zs ts la lb x :
  mont_ok nin code P qs zs ts la lb = true -> length x = nin -> Forall word x ->
  let e := fold_left istep code x in
  facts e nin code /\ Forall word e /\
  2 ^ 256 * lval (map (oval e) ts) = lval (map (oval e) la) * lval (map (oval e) lb) + P * lval (map (oval e) qs).
Proof.
  intros H L W. cbv zeta. unfold mont_ok in H.
  destruct (brun (repeat (B64 - 1) nin) code) as [b'|] eqn:Eb; [|discriminate].
  rewrite <- L in Eb.
  destruct (brun_facts code x (repeat (B64 - 1) (length x)) b' (words_wb x W) Eb) as [F Wb].
  set (e := fold_left istep code x) in *. apply wb_words in Wb.
  destruct (prun (pinit nin) code) as [ps|] eqn:Ep; [|discriminate].
  assert (K : pok e ps).
  { apply (prun_ok e code (pinit nin) ps); [|apply pinit_ok | exact Ep].
    rewrite pinit_length, <- L. exact F. }
  destruct (plin ps qs) as [q|] eqn:Eq; [|discriminate].
  destruct (plin ps zs) as [z|] eqn:Ez; [|discriminate].
  destruct (plin ps ts) as [t|] eqn:Et; [|discriminate].
  destruct (plin ps la) as [pa|] eqn:Ea; [|discriminate].
  destruct (plin ps lb) as [pb|] eqn:Ebb; [|discriminate].
  destruct (pmul pa pb) as [AB|] eqn:EAB; [|discriminate].
  destruct (padd (pscale (2 ^ 256) t) (padd (pscale (- P) q) (padd (pscale (-1) AB) z))) as [|? ?] eqn:E; [|discriminate].
  assert (E0 : peval e (padd (pscale (2 ^ 256) t) (padd (pscale (- P) q) (padd (pscale (-1) AB) z))) = 0) by (rewrite E; reflexivity).
  rewrite !padd_ok, !pscale_ok in E0.
  apply (pzero_ok e ps zs K Wb) in H. rewrite (plin_ok e ps zs z K Ez) in H.
  split; [rewrite <- L; exact F | split; [exact Wb|]].
  rewrite (plin_ok e ps ts t K Et), (plin_ok e ps qs q K Eq),
    (plin_ok e ps la pa K Ea), (plin_ok e ps lb pb K Ebb), <- (pmul_ok e _ _ _ EAB). lia.
Qed.

(** * The final conditional subtraction *)
Definition csub_tail (n : nat) (t0 t1 t2 t3 t4 : opd) (p0 p1 p2 p3 : Z) : list ins :=
  [ISubB (C 0) t0 (C p0); ISubB (R (1 + n)) t1 (C p1); ISubB (R (3 + n)) t2 (C p2);
   ISubB (R (5 + n)) t3 (C p3); ISubB (R (7 + n)) t4 (C 0);
   ICmov (R (9 + n)) (R n) t0; ICmov (R (9 + n)) (R (2 + n)) t1;
   ICmov (R (9 + n)) (R (4 + n)) t2; ICmov (R (9 + n)) (R (6 + n)) t3].
Lemma csub_lin t0 t1 t2 t3 t4 p0 p1 p2 p3 s0 s1 s2 s3 s4 b0 b1 b2 b3 b4 o0 o1 o2 o3 :
  s0 - B64 * b0 = t0 - p0 - 0 -> s1 - B64 * b1 = t1 - p1 - b0 -> s2 - B64 * b2 = t2 - p2 - b1 ->
  s3 - B64 * b3 = t3 - p3 - b2 -> s4 - B64 * b4 = t4 - 0 - b3 -> 0 <= b4 <= 1 ->
  word s0 -> word s1 -> word s2 -> word s3 -> word s4 -> word t0 -> word t1 -> word t2 -> word t3 -> word t4 ->
  o0 = (if b4 =? 0 then s0 else t0) -> o1 = (if b4 =? 0 then s1 else t1) ->
  o2 = (if b4 =? 0 then s2 else t2) -> o3 = (if b4 =? 0 then s3 else t3) ->
  let P := lval [p0; p1; p2; p3] in let T := lval [t0; t1; t2; t3; t4] in
  0 < P < 2 ^ 256 -> T < 2 * P ->
  lval [o0; o1; o2; o3] = T mod P.
Proof.
  intros E0 E1 E2 E3 E4 B4 W0 W1 W2 W3 W4 V0 V1 V2 V3 V4 O0 O1 O2 O3 P T HP HT.
  assert (ES : lval [s0; s1; s2; s3; s4] = T - P + B64 * B64 * B64 * B64 * B64 * b4).
  { subst P T. unfold lval. replace s0 with (t0 - p0 - 0 + B64 * b0) by lia.
    replace s1 with (t1 - p1 - b0 + B64 * b1) by lia. replace s2 with (t2 - p2 - b1 + B64 * b2) by lia.
    replace s3 with (t3 - p3 - b2 + B64 * b3) by lia. replace s4 with (t4 - 0 - b3 + B64 * b4) by lia. ring. }
  assert (HT0 : 0 <= T) by (subst T; unfold lval, word, B64 in *; lia).
  assert (HB : 2 ^ 256 = B64 * B64 * B64 * B64) by reflexivity.
  assert (R0 : 0 <= lval [s0; s1; s2; s3] < B64 * B64 * B64 * B64) by (unfold lval, word, B64 in *; lia).
  assert (R1 : 0 <= lval [t0; t1; t2; t3] < B64 * B64 * B64 * B64) by (unfold lval, word, B64 in *; lia).
  assert (ES' : lval [s0; s1; s2; s3; s4] = lval [s0; s1; s2; s3] + B64 * B64 * B64 * B64 * s4) by (unfold lval; ring).
  assert (ET' : T = lval [t0; t1; t2; t3] + B64 * B64 * B64 * B64 * t4) by (subst T; unfold lval; ring).
  rewrite HB in HP. rewrite ES' in ES.
  assert (D : b4 = 0 \/ b4 = 1) by lia. destruct D as [D|D]; subst b4; cbn [Z.eqb] in *; subst o0 o1 o2 o3.
  - replace T with (T - P + 1 * P) by ring. rewrite Z.mod_add by lia.
    assert (0 <= T - P < P).
    { split; [|lia]. rewrite Z.mul_0_r, Z.add_0_r in ES. rewrite <- ES. unfold word, B64 in *. lia. }
    rewrite Z.mod_small by assumption.
    assert (s4 = 0); [|subst s4; lia].
    clear - ES R0 H HP W4. unfold word, B64 in *. nia.
  - assert (T < P).
    { assert (lval [s0; s1; s2; s3] + B64 * B64 * B64 * B64 * s4 < B64 * B64 * B64 * B64 * B64) by (clear - R0 W4; unfold word, B64 in *; lia). lia. }
    rewrite Z.mod_small by lia.
    assert (t4 = 0); [|subst t4; lia].
    clear - ET' R1 H HP V4 HT0. unfold word, B64 in *. nia.
Qed.
Fixpoint rlen (code : list ins) (n : nat) : nat := match code with [] => n | i :: t => rlen t (ilen i + n) end.
Lemma facts_app e a b : forall n, facts e n (a ++ b) -> facts e (rlen a n) b.
Proof. induction a as [|i a IH]; intros n H; cbn [app facts rlen] in *; [exact H|]. apply IH. exact (proj2 H). Qed.
Lemma facts_csub e n t0 t1 t2 t3 t4 p0 p1 p2 p3 :
  facts e n (csub_tail n t0 t1 t2 t3 t4 p0 p1 p2 p3) -> Forall word e ->
  Forall word (map (oval e) [t0; t1; t2; t3; t4]) ->
  let P := lval [p0; p1; p2; p3] in let T := lval (map (oval e) [t0; t1; t2; t3; t4]) in
  0 < P < 2 ^ 256 -> T < 2 * P ->
  lval (map (fun k => nth k e 0) [10 + n; 11 + n; 12 + n; 13 + n]%nat) = T mod P.
Proof.
  intros F W V. cbn [map] in V. unfold csub_tail in F. cbn [facts irel oval ilen plus] in F.
  destruct F as ([E0 _] & [E1 _] & [E2 _] & [E3 _] & [E4 B4] & [O0 _] & [O1 _] & [O2 _] & [O3 _] & _).
  inversion_clear V as [|? ? V0 V']. inversion_clear V' as [|? ? V1 V'']. inversion_clear V'' as [|? ? V2 V'].
  inversion_clear V' as [|? ? V3 V'']. inversion_clear V'' as [|? ? V4 _].
  cbn [map plus]. apply (csub_lin _ _ _ _ _ _ _ _ _ _ _ _ _ _ _ _ _ _ _ _ _ _ _ E0 E1 E2 E3 E4 B4);
    try assumption; apply words_nth; assumption.
Qed.

(** One whole function: T by Montgomery reduction, then the subtraction. *)
Definition oksrc (e0 : nat) (o : opd) : bool := match o with R _ => true | C k => (0 <=? k) && (k <? B64) | N _ _ => false end.
Lemma mont_fun nin code out P q0 q1 q2 q3 zs t0 t1 t2 t3 t4 la lb k n p0 p1 p2 p3 x :
  mont_ok nin code P [R q0; R q1; R q2; R q3] zs [t0; t1; t2; t3; t4] la lb = true ->
  code = firstn k code ++ csub_tail n t0 t1 t2 t3 t4 p0 p1 p2 p3 ->
  rlen (firstn k code) nin = n -> out = [10 + n; 11 + n; 12 + n; 13 + n]%nat ->
  forallb (oksrc 0) [t0; t1; t2; t3; t4] = true ->
  P = lval [p0; p1; p2; p3] -> 0 < P < 2 ^ 256 ->
  length x = nin -> Forall word x ->
  let e := fold_left istep code x in
  lval (map (oval e) la) * lval (map (oval e) lb) < 2 ^ 256 * P ->
  limbs4 (wexec code out x) /\ 0 <= lval (wexec code out x) < P /\
  (lval (wexec code out x) * 2 ^ 256) mod P = (lval (map (oval e) la) * lval (map (oval e) lb)) mod P.
Proof.
  intros HM HC Hn Ho Hs HP HPb L W. cbv zeta. intros HAB.
  destruct (mont_ok_run nin code P [R q0; R q1; R q2; R q3] zs [t0; t1; t2; t3; t4] la lb x HM L W) as (F & We & E).
  unfold wexec. set (e := fold_left istep code x) in *. clearbody e.
  rewrite HC in F. apply facts_app in F. rewrite Hn in F.
  assert (V : Forall word (map (oval e) [t0; t1; t2; t3; t4])).
  { clear - Hs We. revert Hs. generalize [t0; t1; t2; t3; t4]. induction l as [|o l IH]; cbn [forallb map]; intros H; constructor.
    - apply andb_true_iff in H. destruct H as [H _]. destruct o; cbn [oksrc oval] in *; [apply words_nth; exact We | | discriminate].
      apply andb_true_iff in H. unfold word. lia.
    - apply IH. apply andb_true_iff in H. exact (proj2 H). }
  assert (Q : lval (map (oval e) [R q0; R q1; R q2; R q3]) < 2 ^ 256).
  { cbn [map oval lval]. assert (A0 := words_nth e q0 We). assert (A1 := words_nth e q1 We).
    assert (A2 := words_nth e q2 We). assert (A3 := words_nth e q3 We). clear - A0 A1 A2 A3. unfold word, B64 in *. lia. }
  assert (HT : lval (map (oval e) [t0; t1; t2; t3; t4]) < 2 * P) by (clear - E HAB Q HPb; nia).
  assert (K := facts_csub e n t0 t1 t2 t3 t4 p0 p1 p2 p3 F We V ltac:(rewrite <- HP; exact HPb) ltac:(rewrite <- HP; exact HT)).
  cbv zeta in K. rewrite <- HP in K. rewrite Ho.
  split; [split; [reflexivity|]|].
  { cbn [map]. repeat constructor; try apply words_nth; try exact We; apply (words_nth e); exact We. }
  rewrite K. split; [apply Z.mod_pos_bound; lia|].
  rewrite Z.mul_mod_idemp_l, Z.mul_comm, E by lia. rewrite (Z.mul_comm P), Z.mod_add by lia. reflexivity.
Qed.

(** * Inputs in the final registers *)
Lemma exec_nth code x n : (n < length x)%nat -> nth n (fold_left istep code x) 0 = nth n x 0.
Proof. intros H. destruct (fold_istep_prefix code x) as [t ->]. apply app_nth1. exact H. Qed.

Lemma list4 (x : list Z) : length x = 4%nat -> exists a b c d, x = [a; b; c; d].
Proof.
  destruct x as [|a [|b [|c [|d [|]]]]]; cbn; intros H; try discriminate. repeat eexists.
Qed.
Ltac inputs :=
  repeat match goal with
  | |- context [nth ?n (fold_left istep ?c ?x) 0] => rewrite (exec_nth c x n) by (cbn [length app]; lia)
  end; cbn [nth app].

Definition brun_ok (n : nat) (code : list ins) : bool := match brun (repeat (B64 - 1) n) code with Some _ => true | None => false end.
Section Field.
Variable p0 p1 p2 p3 : Z.
Let P := lval [p0; p1; p2; p3].
Hypothesis HP : 0 < P < 2 ^ 256.

Definition RC (l : list Z) : list opd := map C l.

Lemma mul_generic code out q0 q1 q2 q3 zs t0 t1 t2 t3 t4 k n a b :
  mont_ok 8 code P [R q0; R q1; R q2; R q3] zs [t0; t1; t2; t3; t4] [R 0; R 1; R 2; R 3] [R 4; R 5; R 6; R 7] = true ->
  code = firstn k code ++ csub_tail n t0 t1 t2 t3 t4 p0 p1 p2 p3 ->
  rlen (firstn k code) 8 = n -> out = [10 + n; 11 + n; 12 + n; 13 + n]%nat ->
  forallb (oksrc 0) [t0; t1; t2; t3; t4] = true ->
  limbs4 a -> limbs4 b -> lval a * lval b < 2 ^ 256 * P ->
  let r := wexec code out (a ++ b) in
  limbs4 r /\ 0 <= lval r < P /\ (lval r * 2 ^ 256) mod P = (lval a * lval b) mod P.
Proof.
  intros HM HC Hn Ho Hs [La Wa] [Lb Wb] HB. cbv zeta.
  destruct (list4 a La) as (a0 & a1 & a2 & a3 & ->). destruct (list4 b Lb) as (b0 & b1 & b2 & b3 & ->).
  pose proof (mont_fun 8 code out P q0 q1 q2 q3 zs t0 t1 t2 t3 t4 _ _ k n p0 p1 p2 p3 ([a0; a1; a2; a3] ++ [b0; b1; b2; b3])
    HM HC Hn Ho Hs eq_refl HP eq_refl (proj2 (Forall_app _ _ _) (conj Wa Wb))) as K.
  cbv zeta in K. cbn [map oval] in K.
  rewrite !exec_nth in K by (cbn [length app]; lia). cbn [nth app] in K. apply K. exact HB.
Qed.
Lemma square_generic code out q0 q1 q2 q3 zs t0 t1 t2 t3 t4 k n a :
  mont_ok 4 code P [R q0; R q1; R q2; R q3] zs [t0; t1; t2; t3; t4] [R 0; R 1; R 2; R 3] [R 0; R 1; R 2; R 3] = true ->
  code = firstn k code ++ csub_tail n t0 t1 t2 t3 t4 p0 p1 p2 p3 ->
  rlen (firstn k code) 4 = n -> out = [10 + n; 11 + n; 12 + n; 13 + n]%nat ->
  forallb (oksrc 0) [t0; t1; t2; t3; t4] = true ->
  limbs4 a -> lval a * lval a < 2 ^ 256 * P ->
  let r := wexec code out a in
  limbs4 r /\ 0 <= lval r < P /\ (lval r * 2 ^ 256) mod P = (lval a * lval a) mod P.
Proof.
  intros HM HC Hn Ho Hs [La Wa] HB. cbv zeta.
  destruct (list4 a La) as (a0 & a1 & a2 & a3 & ->).
  pose proof (mont_fun 4 code out P q0 q1 q2 q3 zs t0 t1 t2 t3 t4 _ _ k n p0 p1 p2 p3 [a0; a1; a2; a3]
    HM HC Hn Ho Hs eq_refl HP eq_refl Wa) as K.
  cbv zeta in K. cbn [map oval] in K.
  rewrite !exec_nth in K by (cbn [length app]; lia). cbn [nth app] in K. apply K. exact HB.
Qed.
Lemma const_generic code out q0 q1 q2 q3 zs t0 t1 t2 t3 t4 k n a cs :
  mont_ok 4 code P [R q0; R q1; R q2; R q3] zs [t0; t1; t2; t3; t4] [R 0; R 1; R 2; R 3] (map C cs) = true ->
  code = firstn k code ++ csub_tail n t0 t1 t2 t3 t4 p0 p1 p2 p3 ->
  rlen (firstn k code) 4 = n -> out = [10 + n; 11 + n; 12 + n; 13 + n]%nat ->
  forallb (oksrc 0) [t0; t1; t2; t3; t4] = true ->
  limbs4 a -> lval a * lval cs < 2 ^ 256 * P ->
  let r := wexec code out a in
  limbs4 r /\ 0 <= lval r < P /\ (lval r * 2 ^ 256) mod P = (lval a * lval cs) mod P.
Proof.
  intros HM HC Hn Ho Hs [La Wa] HB. cbv zeta.
  destruct (list4 a La) as (a0 & a1 & a2 & a3 & ->).
  pose proof (mont_fun 4 code out P q0 q1 q2 q3 zs t0 t1 t2 t3 t4 _ _ k n p0 p1 p2 p3 [a0; a1; a2; a3]
    HM HC Hn Ho Hs eq_refl HP eq_refl Wa) as K.
  cbv zeta in K. rewrite map_map in K. cbn [oval] in K. rewrite map_id in K.
  cbn [map oval] in K.
  rewrite !exec_nth in K by (cbn [length app]; lia). cbn [nth app] in K. apply K. exact HB.
Qed.

(** Addition, subtraction, negation. *)
Definition add_code : list ins :=
  [IAddC (C 0) (R 0) (R 4); IAddC (R 9) (R 1) (R 5); IAddC (R 11) (R 2) (R 6); IAddC (R 13) (R 3) (R 7)]
  ++ csub_tail 16 (R 8) (R 10) (R 12) (R 14) (R 15) p0 p1 p2 p3.
Lemma add_generic code out a b :
  code = add_code -> out = [26; 27; 28; 29]%nat -> brun_ok 8 code = true ->
  limbs4 a -> limbs4 b -> lval a + lval b < 2 * P ->
  let r := wexec code out (a ++ b) in
  limbs4 r /\ 0 <= lval r < P /\ lval r = (lval a + lval b) mod P.
Proof.
  intros HC Ho Hb [La Wa] [Lb Wb] HB. cbv zeta.
  destruct (list4 a La) as (a0 & a1 & a2 & a3 & ->). destruct (list4 b Lb) as (b0 & b1 & b2 & b3 & ->).
  set (x := [a0; a1; a2; a3] ++ [b0; b1; b2; b3]).
  assert (Wx : Forall word x) by (apply Forall_app; split; assumption).
  unfold brun_ok in Hb. destruct (brun (repeat (B64 - 1) _) code) as [bs|] eqn:Eb in Hb; [|discriminate]. clear Hb. rename Eb into Hb.
  destruct (brun_facts code x _ bs (words_wb x Wx) Hb) as [F We]. apply wb_words in We.
  assert (X : forall k, (k < 8)%nat -> nth k (fold_left istep code x) 0 = nth k x 0) by (intros k Hk; apply exec_nth; exact Hk).
  unfold wexec. set (e := fold_left istep code x) in *. clearbody e.
  rewrite HC in F. pose proof (facts_app e (firstn 4 add_code) (skipn 4 add_code) (length x)) as F2.
  rewrite firstn_skipn in F2. specialize (F2 F). change (skipn 4 add_code) with (csub_tail 16 (R 8) (R 10) (R 12) (R 14) (R 15) p0 p1 p2 p3) in F2.
  change (rlen (firstn 4 add_code) (length x)) with 16%nat in F2.
  unfold add_code in F. cbn [app facts irel oval ilen plus length x] in F.
  destruct F as ([E0 _] & [E1 _] & [E2 _] & [E3 C3] & _).
  rewrite (X 0%nat), (X 4%nat) in E0 by lia. rewrite (X 1%nat), (X 5%nat) in E1 by lia.
  rewrite (X 2%nat), (X 6%nat) in E2 by lia. rewrite (X 3%nat), (X 7%nat) in E3 by lia. cbn [nth x app] in E0, E1, E2, E3.
  assert (ET : lval (map (oval e) [R 8; R 10; R 12; R 14; R 15]) = lval [a0; a1; a2; a3] + lval [b0; b1; b2; b3]).
  { cbn [map oval lval].
    replace a0 with (nth 8 e 0 + B64 * nth 9 e 0 - b0) by lia.
    replace a1 with (nth 10 e 0 + B64 * nth 11 e 0 - b1 - nth 9 e 0) by lia.
    replace a2 with (nth 12 e 0 + B64 * nth 13 e 0 - b2 - nth 11 e 0) by lia.
    replace a3 with (nth 14 e 0 + B64 * nth 15 e 0 - b3 - nth 13 e 0) by lia. ring. }
  assert (V : Forall word (map (oval e) [R 8; R 10; R 12; R 14; R 15])).
  { cbn [map oval]. repeat (apply Forall_cons; [apply words_nth; exact We|]). apply Forall_nil. }
  pose proof (facts_csub e 16 _ _ _ _ _ _ _ _ _ F2 We V HP ltac:(rewrite ET; exact HB)) as K. cbv zeta in K.
  rewrite ET in K. fold P in K. change [10 + 16; 11 + 16; 12 + 16; 13 + 16]%nat with [26; 27; 28; 29]%nat in K.
  rewrite Ho. split; [split; [reflexivity|]|].
  { cbn [map]. repeat (apply Forall_cons; [apply words_nth; exact We|]). apply Forall_nil. }
  rewrite K. split; [apply Z.mod_pos_bound; lia | reflexivity].
Qed.
Definition mask_tail (n : nat) : list ins :=
  [ICmov (R (7 + n)) (C 0) (C 0xffffffffffffffff); IAddC (C 0) (R n) (N (8 + n) p0);
   IAddC (R (10 + n)) (R (2 + n)) (N (8 + n) p1); IAddC (R (12 + n)) (R (4 + n)) (C 0);
   IAddC (R (14 + n)) (R (6 + n)) (N (8 + n) p3)].
Definition sub_code : list ins :=
  [ISubB (C 0) (R 0) (R 4); ISubB (R 9) (R 1) (R 5); ISubB (R 11) (R 2) (R 6); ISubB (R 13) (R 3) (R 7)] ++ mask_tail 8.
Definition opp_code : list ins :=
  [ISubB (C 0) (C 0) (R 0); ISubB (R 5) (C 0) (R 1); ISubB (R 7) (C 0) (R 2); ISubB (R 9) (C 0) (R 3)] ++ mask_tail 4.
Hypothesis Hp0 : word p0.
Hypothesis Hp1 : word p1.
Hypothesis Hp2 : p2 = 0.
Hypothesis Hp3 : word p3.
Lemma land_mask c v k : v = (if c =? 0 then 0 else 0xffffffffffffffff) -> word k -> 0 <= c <= 1 -> Z.land v k = c * k.
Proof.
  intros -> Hk Hc. assert (D : c = 0 \/ c = 1) by lia. destruct D; subst c.
  - reflexivity.
  - change (Z.land 0xffffffffffffffff k = 1 * k). rewrite Z.land_comm. change 0xffffffffffffffff with (Z.ones 64).
    rewrite Z.land_ones by lia. rewrite Z.mod_small by exact Hk. ring.
Qed.
Lemma sub_lin a0 a1 a2 a3 b0 b1 b2 b3 s0 s1 s2 s3 c0 c1 c2 c3 o0 o1 o2 o3 d0 d1 d2 d3 :
  s0 - B64 * c0 = a0 - b0 - 0 -> s1 - B64 * c1 = a1 - b1 - c0 -> s2 - B64 * c2 = a2 - b2 - c1 -> s3 - B64 * c3 = a3 - b3 - c2 ->
  o0 + B64 * d0 = 0 + s0 + c3 * p0 -> o1 + B64 * d1 = d0 + s1 + c3 * p1 -> o2 + B64 * d2 = d1 + s2 + 0 -> o3 + B64 * d3 = d2 + s3 + c3 * p3 ->
  0 <= c3 <= 1 -> 0 <= d3 <= 1 -> word s0 -> word s1 -> word s2 -> word s3 ->
  word o0 -> word o1 -> word o2 -> word o3 ->
  0 <= lval [a0; a1; a2; a3] < P \/ (0 <= lval [a0; a1; a2; a3] /\ lval [b0; b1; b2; b3] <= lval [a0; a1; a2; a3] < lval [b0; b1; b2; b3] + P) ->
  0 <= lval [b0; b1; b2; b3] <= P ->
  0 <= lval [a0; a1; a2; a3] - lval [b0; b1; b2; b3] + P ->
  lval [o0; o1; o2; o3] = lval [a0; a1; a2; a3] - lval [b0; b1; b2; b3] + (if lval [a0; a1; a2; a3] <? lval [b0; b1; b2; b3] then P else 0).
Proof using Hp2 HP.
  intros A0 A1 A2 A3 O0 O1 O2 O3 C3 D3 S0 S1 S2 S3 W0 W1 W2 W3 BA BB BC.
  assert (HB : 2 ^ 256 = B64 * B64 * B64 * B64) by reflexivity.
  assert (EP : P = p0 + B64 * p1 + B64 * B64 * B64 * p3) by (unfold P; rewrite Hp2; unfold lval; ring).
  assert (ES : lval [s0; s1; s2; s3] = lval [a0; a1; a2; a3] - lval [b0; b1; b2; b3] + B64 * B64 * B64 * B64 * c3).
  { unfold lval. replace s0 with (a0 - b0 - 0 + B64 * c0) by lia. replace s1 with (a1 - b1 - c0 + B64 * c1) by lia.
    replace s2 with (a2 - b2 - c1 + B64 * c2) by lia. replace s3 with (a3 - b3 - c2 + B64 * c3) by lia. ring. }
  assert (EO : lval [o0; o1; o2; o3] = lval [s0; s1; s2; s3] + c3 * P - B64 * B64 * B64 * B64 * d3).
  { rewrite EP. unfold lval. replace o0 with (0 + s0 + c3 * p0 - B64 * d0) by lia. replace o1 with (d0 + s1 + c3 * p1 - B64 * d1) by lia.
    replace o2 with (d1 + s2 + 0 - B64 * d2) by lia. replace o3 with (d2 + s3 + c3 * p3 - B64 * d3) by lia. ring. }
  assert (RS : 0 <= lval [s0; s1; s2; s3] < B64 * B64 * B64 * B64) by (clear - S0 S1 S2 S3; unfold lval, word, B64 in *; lia).
  assert (RO : 0 <= lval [o0; o1; o2; o3] < B64 * B64 * B64 * B64) by (clear - W0 W1 W2 W3; unfold lval, word, B64 in *; lia).
  rewrite HB in HP. clear - ES EO RS RO BA BB BC C3 D3 HP.
  generalize dependent (lval [o0; o1; o2; o3]). generalize dependent (lval [s0; s1; s2; s3]).
  generalize dependent (lval [a0; a1; a2; a3]). generalize dependent (lval [b0; b1; b2; b3]). intros b BB a BA BC s ES RS o EO RO.
  clearbody P. set (M := B64 * B64 * B64 * B64) in *. clearbody M.
  assert (D : c3 = 0 \/ c3 = 1) by lia. assert (D' : d3 = 0 \/ d3 = 1) by lia.
  destruct (Z.ltb_spec a b); destruct D, D'; subst; lia.
Qed.
Lemma sub_generic code out a b :
  code = sub_code -> out = [17; 19; 21; 23]%nat -> brun_ok 8 code = true ->
  limbs4 a -> limbs4 b -> lval a < P -> lval b < P ->
  let r := wexec code out (a ++ b) in
  limbs4 r /\ 0 <= lval r < P /\ lval r = (lval a - lval b) mod P.
Proof.
  intros HC Ho Hb [La Wa] [Lb Wb] HA HB. cbv zeta.
  assert (NA : 0 <= lval a) by (clear - Wa; induction Wa; cbn [lval]; [lia|]; unfold word, B64 in *; lia).
  assert (NB : 0 <= lval b) by (clear - Wb; induction Wb; cbn [lval]; [lia|]; unfold word, B64 in *; lia).
  destruct (list4 a La) as (a0 & a1 & a2 & a3 & ->). destruct (list4 b Lb) as (b0 & b1 & b2 & b3 & ->).
  set (x := [a0; a1; a2; a3] ++ [b0; b1; b2; b3]).
  assert (Wx : Forall word x) by (apply Forall_app; split; assumption).
  unfold brun_ok in Hb. destruct (brun (repeat (B64 - 1) _) code) as [bs|] eqn:Eb in Hb; [|discriminate]. clear Hb. rename Eb into Hb.
  destruct (brun_facts code x _ bs (words_wb x Wx) Hb) as [F We]. apply wb_words in We.
  assert (X : forall k, (k < 8)%nat -> nth k (fold_left istep code x) 0 = nth k x 0) by (intros k Hk; apply exec_nth; exact Hk).
  unfold wexec. set (e := fold_left istep code x) in *. clearbody e.
  rewrite HC in F. unfold sub_code, mask_tail in F. cbn [app facts irel oval ilen plus length x] in F.
  destruct F as ([E0 _] & [E1 _] & [E2 _] & [E3 C3] & [M CC] & [O0 _] & [O1 _] & [O2 _] & [O3 D3] & _).
  rewrite (X 0%nat), (X 4%nat) in E0 by lia. rewrite (X 1%nat), (X 5%nat) in E1 by lia.
  rewrite (X 2%nat), (X 6%nat) in E2 by lia. rewrite (X 3%nat), (X 7%nat) in E3 by lia. cbn [nth x app] in E0, E1, E2, E3.
  rewrite (land_mask _ _ p0 M Hp0 CC) in O0. rewrite (land_mask _ _ p1 M Hp1 CC) in O1. rewrite (land_mask _ _ p3 M Hp3 CC) in O3.
  assert (K := sub_lin a0 a1 a2 a3 b0 b1 b2 b3 _ _ _ _ _ _ _ _ _ _ _ _ _ _ _ _ E0 E1 E2 E3 O0 O1 O2 O3 CC D3).
  rewrite Ho. cbn [map].
  split; [split; [reflexivity|]|].
  { repeat (apply Forall_cons; [apply words_nth; exact We|]). apply Forall_nil. }
  rewrite K; [|apply words_nth; exact We .. | left; lia | lia | lia].
  clear K.
  generalize dependent (lval [b0; b1; b2; b3]). generalize dependent (lval [a0; a1; a2; a3]). intros va HA NA vb HB NB.
  destruct (Z.ltb_spec va vb).
  - split; [lia|]. replace (va - vb) with (va - vb + P + (-1) * P) at 2 by ring. rewrite Z.mod_add, Z.mod_small by lia. reflexivity.
  - split; [lia|]. rewrite Z.mod_small by lia. ring.
Qed.
Lemma opp_generic code out b :
  code = opp_code -> out = [13; 15; 17; 19]%nat -> brun_ok 4 code = true ->
  limbs4 b -> lval b < P ->
  let r := wexec code out b in
  limbs4 r /\ 0 <= lval r < P /\ lval r = (- lval b) mod P.
Proof.
  intros HC Ho Hb [Lb Wb] HB. cbv zeta.
  assert (NB : 0 <= lval b) by (clear - Wb; induction Wb; cbn [lval]; [lia|]; unfold word, B64 in *; lia).
  destruct (list4 b Lb) as (b0 & b1 & b2 & b3 & ->).
  set (x := [b0; b1; b2; b3]).
  unfold brun_ok in Hb. destruct (brun (repeat (B64 - 1) _) code) as [bs|] eqn:Eb in Hb; [|discriminate]. clear Hb. rename Eb into Hb.
  destruct (brun_facts code x _ bs (words_wb x Wb) Hb) as [F We]. apply wb_words in We.
  assert (X : forall k, (k < 4)%nat -> nth k (fold_left istep code x) 0 = nth k x 0) by (intros k Hk; apply exec_nth; exact Hk).
  unfold wexec. set (e := fold_left istep code x) in *. clearbody e.
  rewrite HC in F. unfold opp_code, mask_tail in F. cbn [app facts irel oval ilen plus length x] in F.
  destruct F as ([E0 _] & [E1 _] & [E2 _] & [E3 C3] & [M CC] & [O0 _] & [O1 _] & [O2 _] & [O3 D3] & _).
  rewrite (X 0%nat) in E0 by lia. rewrite (X 1%nat) in E1 by lia.
  rewrite (X 2%nat) in E2 by lia. rewrite (X 3%nat) in E3 by lia. cbn [nth x app] in E0, E1, E2, E3.
  rewrite (land_mask _ _ p0 M Hp0 CC) in O0. rewrite (land_mask _ _ p1 M Hp1 CC) in O1. rewrite (land_mask _ _ p3 M Hp3 CC) in O3.
  assert (K := sub_lin 0 0 0 0 b0 b1 b2 b3 _ _ _ _ _ _ _ _ _ _ _ _ _ _ _ _ E0 E1 E2 E3 O0 O1 O2 O3 CC D3).
  change (lval [0; 0; 0; 0]) with 0 in K.
  rewrite Ho. cbn [map].
  split; [split; [reflexivity|]|].
  { repeat (apply Forall_cons; [apply words_nth; exact We|]). apply Forall_nil. }
  rewrite K; [|apply words_nth; exact We .. | left; lia | lia | lia].
  clear K. subst x. generalize dependent (lval [b0; b1; b2; b3]). intros vb HB NB.
  destruct (Z.ltb_spec 0 vb).
  - split; [lia|]. rewrite <- (Z.mod_add (- vb) 1 P) by lia. rewrite Z.mod_small by lia. ring.
  - split; [lia|]. replace vb with 0 by lia. reflexivity.
Qed.
End Field.

(** * The two fields *)
Definition Pp : Z := 0x40000000000000000000000000000000224698fc094cf91b992d30ed00000001.
Definition Pq : Z := 0x40000000000000000000000000000000224698fc0994a8dd8c46eb2100000001.
Definition r2p : list Z := [0x8c78ecb30000000f; 0xd7d30dbd8b0de0e7; 0x7797a99bc3c95d18; 0x96d41af7b9cb714].
Definition r2q : list Z := [0xfc9678ff0000000f; 0x67bb433d891a16e3; 0x7fae231004ccf590; 0x96d41af7ccfdaa9].

Lemma limbs4_bound a : limbs4 a -> 0 <= lval a < 2 ^ 256.
Proof.
  intros [L W]. destruct (list4 a L) as (a0 & a1 & a2 & a3 & ->).
  inversion_clear W as [|? ? V0 V']. inversion_clear V' as [|? ? V1 V'']. inversion_clear V'' as [|? ? V2 V'].
  inversion_clear V' as [|? ? V3 _]. unfold lval, word, B64 in *. lia.
Qed.
Lemma cancel_R m i x y : (2 ^ 256 * i) mod m = 1 -> 0 < m < 2 ^ 256 -> (x * 2 ^ 256) mod m = (y * 2 ^ 256) mod m -> x mod m = y mod m.
Proof.
  intros Hi Hm H.
  assert (K : forall z, z mod m = ((z * 2 ^ 256) mod m * i) mod m).
  { intros z. rewrite Z.mul_mod_idemp_l by lia. rewrite <- Z.mul_assoc, <- Z.mul_mod_idemp_r, Hi, Z.mul_1_r by lia. reflexivity. }
  rewrite (K x), (K y), H. reflexivity.
Qed.
Definition invp : Z := 0x21f1c4ff1e2278d570cb2996efc89a65ac9fba6a4077fc57cf3f8e8753a769a9.
Definition invq : Z := 0x1f7a89dd176479535790be58c050df13c68de1279dc601eb6119a3dd8e1a6f7f.
Lemma HPp : 0 < Pp < 2 ^ 256. Proof. split; reflexivity. Qed.
Lemma fp_mul_ok a b : limbs4 a -> limbs4 b -> lval a * lval b < 2 ^ 256 * Pp ->
  let r := wexec fp_mul_code fp_mul_out (a ++ b) in
  limbs4 r /\ 0 <= lval r < Pp /\ (lval r * 2 ^ 256) mod Pp = (lval a * lval b) mod Pp.
Proof.
  apply (mul_generic 0x992d30ed00000001 0x224698fc094cf91b 0x0 0x4000000000000000 HPp fp_mul_code fp_mul_out 27 73 120 167 [R 38; R 84; R 131; R 178]
    (R 180) (R 182) (R 184) (R 186) (R 188) 98 189); [vm_cast_no_check (@eq_refl bool true) | reflexivity ..].
Qed.
Lemma fp_square_ok a : limbs4 a -> lval a * lval a < 2 ^ 256 * Pp ->
  let r := wexec fp_square_code fp_square_out a in
  limbs4 r /\ 0 <= lval r < Pp /\ (lval r * 2 ^ 256) mod Pp = (lval a * lval a) mod Pp.
Proof.
  apply (square_generic 0x992d30ed00000001 0x224698fc094cf91b 0x0 0x4000000000000000 HPp fp_square_code fp_square_out 23 69 116 163 [R 34; R 80; R 127; R 174]
    (R 176) (R 178) (R 180) (R 182) (R 184) 98 185); [vm_cast_no_check (@eq_refl bool true) | reflexivity ..].
Qed.
Lemma fp_from_ok a : limbs4 a ->
  let r := wexec fp_from_code fp_from_out a in
  limbs4 r /\ 0 <= lval r < Pp /\ (lval r * 2 ^ 256) mod Pp = lval a mod Pp.
Proof.
  intros Ha. assert (B := limbs4_bound a Ha).
  pose proof (const_generic 0x992d30ed00000001 0x224698fc094cf91b 0x0 0x4000000000000000 HPp fp_from_code fp_from_out 5 21 49 76 [R 15; R 31; R 59; R 86]
    (R 88) (R 91) (R 95) (R 97) (C 0) 53 98 a [1] ltac:(vm_cast_no_check (@eq_refl bool true)) eq_refl eq_refl eq_refl eq_refl Ha) as K.
  change (lval [1]) with 1 in K. rewrite Z.mul_1_r in K. apply K. clear - B.
  change (lval [0x992d30ed00000001; 0x224698fc094cf91b; 0x0; 0x4000000000000000]) with Pp. unfold Pp. lia.
Qed.
Lemma fp_to_ok a : limbs4 a ->
  let r := wexec fp_to_code fp_to_out a in
  limbs4 r /\ 0 <= lval r < Pp /\ lval r mod Pp = (lval a * 2 ^ 256) mod Pp.
Proof.
  intros Ha. assert (B := limbs4_bound a Ha).
  pose proof (const_generic 0x992d30ed00000001 0x224698fc094cf91b 0x0 0x4000000000000000 HPp fp_to_code fp_to_out 22 66 111 156 [R 32; R 76; R 121; R 166]
    (R 168) (R 171) (R 173) (R 178) (C 0) 99 179 a r2p ltac:(vm_cast_no_check (@eq_refl bool true)) eq_refl eq_refl eq_refl eq_refl Ha) as K.
  change (lval [0x992d30ed00000001; 0x224698fc094cf91b; 0x0; 0x4000000000000000]) with Pp in K. cbv zeta in K.
  destruct K as (K1 & K2 & K3).
  { assert (lval r2p < Pp) by reflexivity. assert (0 <= lval r2p) by (vm_compute; discriminate). clear - B H H0. generalize dependent (lval r2p). intros; nia. }
  cbv zeta. split; [exact K1 | split; [exact K2|]].
  apply (cancel_R Pp invp); [reflexivity | apply HPp |].
  rewrite K3. rewrite <- Z.mul_assoc. change (2 ^ 256 * 2 ^ 256) with (2 ^ 512).
  rewrite <- (Z.mul_mod_idemp_r (lval a) (2 ^ 512)) by discriminate.
  change (2 ^ 512 mod Pp) with (lval r2p). reflexivity.
Qed.
Lemma fp_add_ok a b : limbs4 a -> limbs4 b -> lval a + lval b < 2 * Pp ->
  let r := wexec fp_add_code fp_add_out (a ++ b) in
  limbs4 r /\ 0 <= lval r < Pp /\ lval r = (lval a + lval b) mod Pp.
Proof. apply (add_generic 0x992d30ed00000001 0x224698fc094cf91b 0x0 0x4000000000000000 HPp); reflexivity. Qed.
Lemma fp_sub_ok a b : limbs4 a -> limbs4 b -> lval a < Pp -> lval b < Pp ->
  let r := wexec fp_sub_code fp_sub_out (a ++ b) in
  limbs4 r /\ 0 <= lval r < Pp /\ lval r = (lval a - lval b) mod Pp.
Proof. apply (sub_generic 0x992d30ed00000001 0x224698fc094cf91b 0x0 0x4000000000000000 HPp); try reflexivity; (split; [discriminate | reflexivity]). Qed.
Lemma fp_opp_ok a : limbs4 a -> lval a < Pp ->
  let r := wexec fp_opp_code fp_opp_out a in
  limbs4 r /\ 0 <= lval r < Pp /\ lval r = (- lval a) mod Pp.
Proof. apply (opp_generic 0x992d30ed00000001 0x224698fc094cf91b 0x0 0x4000000000000000 HPp); try reflexivity; (split; [discriminate | reflexivity]). Qed.
Lemma HPq : 0 < Pq < 2 ^ 256. Proof. split; reflexivity. Qed.
Lemma fq_mul_ok a b : limbs4 a -> limbs4 b -> lval a * lval b < 2 ^ 256 * Pq ->
  let r := wexec fq_mul_code fq_mul_out (a ++ b) in
  limbs4 r /\ 0 <= lval r < Pq /\ (lval r * 2 ^ 256) mod Pq = (lval a * lval b) mod Pq.
Proof.
  apply (mul_generic 0x8c46eb2100000001 0x224698fc0994a8dd 0x0 0x4000000000000000 HPq fq_mul_code fq_mul_out 27 73 120 167 [R 38; R 84; R 131; R 178]
    (R 180) (R 182) (R 184) (R 186) (R 188) 98 189); [vm_cast_no_check (@eq_refl bool true) | reflexivity ..].
Qed.
Lemma fq_square_ok a : limbs4 a -> lval a * lval a < 2 ^ 256 * Pq ->
  let r := wexec fq_square_code fq_square_out a in
  limbs4 r /\ 0 <= lval r < Pq /\ (lval r * 2 ^ 256) mod Pq = (lval a * lval a) mod Pq.
Proof.
  apply (square_generic 0x8c46eb2100000001 0x224698fc0994a8dd 0x0 0x4000000000000000 HPq fq_square_code fq_square_out 23 69 116 163 [R 34; R 80; R 127; R 174]
    (R 176) (R 178) (R 180) (R 182) (R 184) 98 185); [vm_cast_no_check (@eq_refl bool true) | reflexivity ..].
Qed.
Lemma fq_from_ok a : limbs4 a ->
  let r := wexec fq_from_code fq_from_out a in
  limbs4 r /\ 0 <= lval r < Pq /\ (lval r * 2 ^ 256) mod Pq = lval a mod Pq.
Proof.
  intros Ha. assert (B := limbs4_bound a Ha).
  pose proof (const_generic 0x8c46eb2100000001 0x224698fc0994a8dd 0x0 0x4000000000000000 HPq fq_from_code fq_from_out 5 21 49 76 [R 15; R 31; R 59; R 86]
    (R 88) (R 91) (R 95) (R 97) (C 0) 53 98 a [1] ltac:(vm_cast_no_check (@eq_refl bool true)) eq_refl eq_refl eq_refl eq_refl Ha) as K.
  change (lval [1]) with 1 in K. rewrite Z.mul_1_r in K. apply K. clear - B.
  change (lval [0x8c46eb2100000001; 0x224698fc0994a8dd; 0x0; 0x4000000000000000]) with Pq. unfold Pq. lia.
Qed.
Lemma fq_to_ok a : limbs4 a ->
  let r := wexec fq_to_code fq_to_out a in
  limbs4 r /\ 0 <= lval r < Pq /\ lval r mod Pq = (lval a * 2 ^ 256) mod Pq.
Proof.
  intros Ha. assert (B := limbs4_bound a Ha).
  pose proof (const_generic 0x8c46eb2100000001 0x224698fc0994a8dd 0x0 0x4000000000000000 HPq fq_to_code fq_to_out 22 66 111 156 [R 32; R 76; R 121; R 166]
    (R 168) (R 171) (R 173) (R 178) (C 0) 99 179 a r2q ltac:(vm_cast_no_check (@eq_refl bool true)) eq_refl eq_refl eq_refl eq_refl Ha) as K.
  change (lval [0x8c46eb2100000001; 0x224698fc0994a8dd; 0x0; 0x4000000000000000]) with Pq in K. cbv zeta in K.
  destruct K as (K1 & K2 & K3).
  { assert (lval r2q < Pq) by reflexivity. assert (0 <= lval r2q) by (vm_compute; discriminate). clear - B H H0. generalize dependent (lval r2q). intros; nia. }
  cbv zeta. split; [exact K1 | split; [exact K2|]].
  apply (cancel_R Pq invq); [reflexivity | apply HPq |].
  rewrite K3. rewrite <- Z.mul_assoc. change (2 ^ 256 * 2 ^ 256) with (2 ^ 512).
  rewrite <- (Z.mul_mod_idemp_r (lval a) (2 ^ 512)) by discriminate.
  change (2 ^ 512 mod Pq) with (lval r2q). reflexivity.
Qed.
Lemma fq_add_ok a b : limbs4 a -> limbs4 b -> lval a + lval b < 2 * Pq ->
  let r := wexec fq_add_code fq_add_out (a ++ b) in
  limbs4 r /\ 0 <= lval r < Pq /\ lval r = (lval a + lval b) mod Pq.
Proof. apply (add_generic 0x8c46eb2100000001 0x224698fc0994a8dd 0x0 0x4000000000000000 HPq); reflexivity. Qed.
Lemma fq_sub_ok a b : limbs4 a -> limbs4 b -> lval a < Pq -> lval b < Pq ->
  let r := wexec fq_sub_code fq_sub_out (a ++ b) in
  limbs4 r /\ 0 <= lval r < Pq /\ lval r = (lval a - lval b) mod Pq.
Proof. apply (sub_generic 0x8c46eb2100000001 0x224698fc0994a8dd 0x0 0x4000000000000000 HPq); try reflexivity; (split; [discriminate | reflexivity]). Qed.
Lemma fq_opp_ok a : limbs4 a -> lval a < Pq ->
  let r := wexec fq_opp_code fq_opp_out a in
  limbs4 r /\ 0 <= lval r < Pq /\ lval r = (- lval a) mod Pq.
Proof. apply (opp_generic 0x8c46eb2100000001 0x224698fc0994a8dd 0x0 0x4000000000000000 HPq); try reflexivity; (split; [discriminate | reflexivity]). Qed.
