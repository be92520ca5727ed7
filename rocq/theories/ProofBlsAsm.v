(** * The amd64 assembly: additions, subtractions and negation. *)
From Coq Require Import ZArith List Lia Bool.
From Verif Require Import ModelBlsF ModelX86 ModelBlsAsm SpecBls ProofBlsF.
Import ListNotations.
Local Open Scope Z_scope.

Lemma xrun_cons : forall i c st, xrun (i :: c) st = xrun c (xstep st i).
Proof. reflexivity. Qed.
Lemma xrun_nil : forall st, xrun [] st = st.
Proof. reflexivity. Qed.

Lemma list6 : forall x : list Z, length x = 6%nat ->
  exists a b c d e f, x = [a; b; c; d; e; f].
Proof.
  intros x H. do 6 (destruct x as [|? x]; [discriminate H|]). destruct x; [|discriminate H].
  repeat eexists.
Qed.
Lemma list17 : forall x : list Z, length x = 17%nat ->
  exists a b c d e f g h i j k l m n o p q, x = [a; b; c; d; e; f; g; h; i; j; k; l; m; n; o; p; q].
Proof.
  intros x H. do 17 (destruct x as [|? x]; [discriminate H|]). destruct x; [|discriminate H].
  repeat eexists.
Qed.

(** one instruction of a symbolic run *)
Ltac xstep1 :=
  rewrite xrun_cons;
  cbn [xstep]; unfold xadd, xsub; cbn [rd wr ix nth upd mem cf ovf Nat.add];
  match goal with
  | |- context [let '(_, _) := add64 ?x ?y ?c in _] =>
      let s := fresh "s" in let k := fresh "k" in let E := fresh "E" in
      destruct (add64 x y c) as [s k] eqn:E
  | |- context [let '(_, _) := sub64 ?x ?y ?c in _] =>
      let s := fresh "s" in let k := fresh "k" in let E := fresh "E" in
      destruct (sub64 x y c) as [s k] eqn:E
  | |- _ => idtac
  end;
  cbv iota beta.
Ltac xstart_tac code :=
  let H := fresh in
  match goal with
  | |- xcall _ ?j _ _ ?a ?b = _ => idtac
  end;
  unfold xcall, xstart, code; cbn [app].
Ltac xfin := rewrite xrun_nil; unfold xresult; cbn [mem skipn].

(** what the code computes, as chains *)
Definition x_add (a b : list Z) : list Z :=
  let r := fst (addc a b 0) in
  let '(s, k) := subb r bls_q 0 in if k =? 0 then s else r.
Definition x_sub (a b : list Z) : list Z :=
  let '(r, k) := subb a b 0 in
  fst (addc r (if k =? 0 then fb_zero else bls_q) 0).

Ltac exp_lists :=
  repeat match goal with
  | H : length ?x = 6%nat |- _ => apply list6 in H; destruct H as (? & ? & ? & ? & ? & ? & ->)
  | H : length ?x = 17%nat |- _ =>
      apply list17 in H;
      destruct H as (? & ? & ? & ? & ? & ? & ? & ? & ? & ? & ? & ? & ? & ? & ? & ? & ? & ->)
  end.
Ltac use_eqs := repeat match goal with E : _ = (_, _) |- _ => rewrite E; clear E; cbv iota beta end.
Ltac chain := unfold bls_q, fb_zero; cbn [addc subb fst];
  repeat (match goal with E : ?l = (_, _) |- context [?l] => rewrite E end; cbn [addc subb fst]).

Ltac xcmov Ek := repeat (rewrite xrun_cons; cbn [xstep rd wr ix nth upd mem cf ovf Nat.add]; try rewrite Ek).
Ltac xbranch := match goal with |- context [?k =? 0] => let Ek := fresh "Ek" in destruct (k =? 0) eqn:Ek; xcmov Ek end.

Section Call.
Variables (junk : list Z) (c o : Z) (a b : list Z).
Hypothesis Hj : length junk = 17%nat.
Hypothesis Ha : length a = 6%nat.
Hypothesis Hb : length b = 6%nat.
Ltac start code := clear -Hj Ha Hb; exp_lists; unfold xcall, xstart, code; cbn [app].
Ltac adds code := start code; do 30 xstep1; unfold x_add; chain; xbranch; xfin; reflexivity.
Ltac lins code := start code; repeat xstep1; xfin; unfold fb_ladd, fb_ldouble, fb_lsub; chain; reflexivity.

Lemma asm_add_eq : xcall asm_add junk c o a b = x_add a b.
Proof using All. adds asm_add. Qed.
Lemma asm_addAssign_eq : xcall asm_addAssign junk c o a b = x_add a b.
Proof using All. adds asm_addAssign. Qed.
Lemma asm_double_eq : xcall asm_double junk c o a b = x_add a a.
Proof using All. adds asm_double. Qed.
Lemma asm_doubleAssign_eq : xcall asm_doubleAssign junk c o a b = x_add a a.
Proof using All. adds asm_doubleAssign. Qed.
Lemma asm_ladd_eq : xcall asm_ladd junk c o a b = fb_ladd a b.
Proof using All. lins asm_ladd. Qed.
Lemma asm_laddAssign_eq : xcall asm_laddAssign junk c o a b = fb_ladd a b.
Proof using All. lins asm_laddAssign. Qed.
Lemma asm_ldouble_eq : xcall asm_ldouble junk c o a b = fb_ldouble a.
Proof using All. lins asm_ldouble. Qed.
Lemma asm_lsubAssign_eq : xcall asm_lsubAssign junk c o a b = fb_lsub a b.
Proof using All. lins asm_lsubAssign. Qed.
Lemma asm_neg_eq : xcall asm_neg junk c o a b = fst (subb bls_q a 0).
Proof using All. start asm_neg. repeat xstep1. xfin. chain. reflexivity. Qed.

Ltac subs code :=
  start code; rewrite xrun_cons; cbn [xstep rd wr ix nth upd mem cf ovf Nat.add];
  rewrite Z.lxor_nilpotent; do 18 xstep1; unfold x_sub; chain;
  match goal with |- context [?k =? 0] => let Ek := fresh "Ek" in destruct (k =? 0) eqn:Ek;
    do 6 (rewrite xrun_cons; cbn [xstep rd wr ix nth upd mem cf ovf Nat.add]; try rewrite Ek) end;
  repeat xstep1; xfin; chain; reflexivity.
Lemma asm_sub_eq : xcall asm_sub junk c o a b = x_sub a b.
Proof using All. subs asm_sub. Qed.
Lemma asm_subAssign_eq : xcall asm_subAssign junk c o a b = x_sub a b.
Proof using All. subs asm_subAssign. Qed.
End Call.

(** the chains compute modulo p *)
Lemma x_reduce : forall r, fe6 r -> bval r < 2 * bls_p ->
  let z := (let '(s, k) := subb r bls_q 0 in if k =? 0 then s else r) in
  fe6 z /\ bval z = bval r mod bls_p.
Proof.
  intros r F B. pose proof (fe6_val r F) as V. pose proof p_R as [PR P1].
  cbv zeta. destruct (subb r bls_q 0) as [s k] eqn:E.
  destruct (subb_spec _ _ _ _ _ E) as (Ws & Ls & K & Vs);
    [rewrite (proj1 F); reflexivity|apply F|apply q_fe6|lia|].
  rewrite (proj1 F), R_pow, q_val in Vs.
  assert (F2 : fe6 s) by (split; [rewrite Ls; apply F|assumption]).
  pose proof (fe6_val s F2) as VS.
  destruct (Z.eqb_spec k 0) as [->|N].
  - split; [exact F2|].
    rewrite <- (Z.mod_unique (bval r) bls_p 1 (bval s)); [reflexivity| |]; clear - Vs VS B P1; lia.
  - assert (k = 1) by lia. subst k. split; [exact F|].
    rewrite Z.mod_small; [reflexivity|]. clear - Vs VS V; lia.
Qed.

Lemma x_add_spec : forall x y, fe6 x -> fe6 y -> bval x < bls_p -> bval y < bls_p ->
  fe6 (x_add x y) /\ bval (x_add x y) = (bval x + bval y) mod bls_p.
Proof.
  intros x y Hx Hy Bx By. pose proof p_R as [PR P1].
  destruct (ladd_raw x y Hx Hy ltac:(clear - PR P1 Bx By; lia)) as [F V].
  destruct (x_reduce _ F) as [F2 V2]; [rewrite V; clear - Bx By; lia|].
  rewrite V in V2. exact (conj F2 V2).
Qed.

Lemma addc_zero : forall r, words r -> fst (addc r (repeat 0 (length r)) 0) = r.
Proof.
  induction 1 as [|x r Hx Hr IH]; [reflexivity|].
  cbn [length repeat addc].
  assert (A : add64 x 0 0 = (x, 0)).
  { unfold add64. rewrite !Z.add_0_r, Z.mod_small, Z.div_small by exact Hx. reflexivity. }
  rewrite A. destruct (addc r (repeat 0 (length r)) 0) as [t k]. cbn [fst] in *. congruence.
Qed.

Lemma x_sub_eq : forall x y, fe6 x -> fe6 y -> x_sub x y = fb_sub x y.
Proof.
  intros x y Hx Hy. unfold x_sub, fb_sub. destruct (subb x y 0) as [r k] eqn:E.
  destruct (subb_spec _ _ _ _ _ E) as (Ws & Ls & K & Vs);
    [rewrite (proj1 Hx), (proj1 Hy); reflexivity|apply Hx|apply Hy|lia|].
  destruct (k =? 0); cbn [negb]; [|reflexivity].
  replace fb_zero with (repeat 0 (length r)); [apply addc_zero; assumption|].
  rewrite Ls, (proj1 Hx). reflexivity.
Qed.
