(** The curve of Ed25519 is a complete twisted Edwards curve over a prime field, and
    its base point has prime order L. *)
Require Import ZArith List Lia Bool Znumtheory Field Uint63.
Require Import Verif.Base Verif.Fp Verif.Group Verif.Edw Verif.Mont63 Verif.Primes Verif.OrderCheck Verif.SpecEd Verif.EdHint.
Import ListNotations.
Open Scope Z_scope.

Lemma prime_p25 : prime p25. Proof. exact prime_p25519. Qed.
Lemma prime_L : prime ed_L. Proof. exact prime_l25519. Qed.
Lemma p25_pos : 2 < p25. Proof. reflexivity. Qed.

Lemma Kf25 : field_theory (fz 0) (fz 1) fp_add fp_mul fp_sub fp_opp fp_div fp_inv (@eq F25).
Proof. exact (fp_field _ prime_p25). Qed.
Add Field KF25 : Kf25.

Definition ed_dz : Z := 37095705934669439343138083508754565189542113879843219016388785533085940283555.
Definition ed_iz : Z := 19681161376707505956807079304988542015446066515923890162744021073123829784752.
Lemma ed_d_val : ed_d = fz ed_dz.
Proof.
  assert (E : fp_mul (fz ed_dz) (fz 121666) = fz (-121665)).
  { rewrite <- fp_of_mul. apply fp_of_eq. vm_compute. reflexivity. }
  assert (N : fz 121666 <> fz 0). { apply (fp_of_ne0 _ 121666). split; reflexivity. }
  unfold ed_d. rewrite <- E. field. exact N.
Qed.
Lemma ed_char2 : fp_add (fz 1) (fz 1) <> fz 0.
Proof. rewrite <- fp_of_add. apply (fp_of_ne0 _ (1 + 1)). split; reflexivity. Qed.
Lemma ed_i_sq : fp_mul (fz ed_iz) (fz ed_iz) = fp_opp (fz 1).
Proof.
  rewrite <- fp_of_mul, <- fp_of_opp. apply fp_of_eq. vm_compute. reflexivity.
Qed.

(** Euler's criterion, in the direction needed *)
Lemma square_euler q t z : prime q -> 2 < q -> q mod 2 = 1 -> (t * t) mod q = z mod q -> z mod q <> 0 ->
  (z ^ ((q - 1) / 2)) mod q = 1.
Proof.
  intros Hq H2 Ho E N. rewrite <- pow_mod_mod by (try lia; apply Z.div_pos; lia). rewrite <- E.
  rewrite pow_mod_mod by (try lia; apply Z.div_pos; lia).
  replace (t * t) with (t ^ 2) by ring. rewrite <- Z.pow_mul_r by (try lia; apply Z.div_pos; lia).
  replace (2 * ((q - 1) / 2)) with (q - 1).
  - apply fermat; [exact Hq|]. intros Z0. apply N. rewrite <- E, Z.mul_mod, Z0 by lia. reflexivity.
  - pose proof (Z.div_mod q 2 ltac:(lia)). rewrite Ho in H.
    replace (q - 1) with (q / 2 * 2) by lia. rewrite Z.div_mul by lia. lia.
Qed.
Lemma ed_d_euler : (ed_dz ^ ((p25 - 1) / 2)) mod p25 = p25 - 1.
Proof.
  apply (c_powmod_spec ctx_p25519 ctx_p25519_ok ed_dz (Z.to_pos ((p25 - 1) / 2))).
  vm_cast_no_check (@eq_refl (option Z) (Some (p25 - 1))).
Qed.
Lemma ed_d_nonsquare : forall t : F25, fp_mul t t <> ed_d.
Proof.
  intros t E. rewrite ed_d_val in E.
  assert (E' : (fval t * fval t) mod p25 = ed_dz mod p25).
  { apply fp_of_eq. rewrite fp_of_mul, !fp_of_val. exact E. }
  pose proof (square_euler p25 (fval t) ed_dz prime_p25 p25_pos eq_refl E' ltac:(vm_compute; discriminate)) as X.
  rewrite ed_d_euler in X. vm_compute in X. discriminate X.
Qed.

Theorem ed_group : is_group ed_pt ed_zero ed_add ed_neg ed_on.
Proof. exact (e_group _ _ _ _ _ _ _ _ _ Kf25 fp_dec ed_d (fz ed_iz) ed_char2 ed_i_sq ed_d_nonsquare). Qed.

Lemma ed_complete x1 y1 x2 y2 : ed_on (x1, y1) -> ed_on (x2, y2) ->
  let m := fp_mul (fp_mul ed_d (fp_mul x1 x2)) (fp_mul y1 y2) in
  fp_add (fz 1) m <> fz 0 /\ fp_sub (fz 1) m <> fz 0.
Proof. exact (e_complete _ _ _ _ _ _ _ _ _ Kf25 fp_dec ed_d (fz ed_iz) ed_char2 ed_i_sq ed_d_nonsquare x1 y1 x2 y2). Qed.

(** ** Checking P1 + P2 = P3 in Montgomery form *)
Notation m25 := ctx_p25519.
Lemma m25_ok : mctx_ok m25 = true. Proof. exact ctx_p25519_ok. Qed.

Fixpoint leq (a b : list int) : bool :=
  match a, b with
  | [], [] => true
  | x :: a', y :: b' => (x =? y)%uint63 && leq a' b'
  | _, _ => false
  end.
Lemma leq_ok a b : leq a b = true -> a = b.
Proof.
  revert b. induction a as [|x a IH]; intros [|y b] H; try discriminate; [reflexivity|].
  cbn in H. apply andb_true_iff in H. destruct H as [H1 H2]. apply Uint63.eqb_spec in H1. subst. f_equal. auto.
Qed.
Definition eqm (a b : list int) : bool :=
  leq a b || match madd a (mc_M m25) with Some a' => leq a' b | None => false end
  || match madd b (mc_M m25) with Some b' => leq a b' | None => false end.
Definition mr (l : list int) (x : F25) : Prop := mrel m25 l x.
Lemma mr_mul a b x y r : mr a x -> mr b y -> c_mul m25 a b = Some r -> mr r (fp_mul x y).
Proof. exact (c_mul_rel m25 m25_ok a b x y r). Qed.
Lemma mr_sub a b x y r : mr a x -> mr b y -> c_sub m25 a b = Some r -> mr r (fp_sub x y).
Proof. exact (c_sub_rel m25 m25_ok a b x y r). Qed.
Lemma mr_add a b x y r : mr a x -> mr b y -> madd a b = Some r -> mr r (fp_add x y).
Proof. exact (madd_rel m25 a b x y r). Qed.
Lemma mr_M : mr (mc_M m25) (fz 0).
Proof.
  destruct (ctx_facts m25 m25_ok) as (_ & _ & H3 & H4 & _). split; [exact H3|].
  rewrite H4. change (mc_p m25) with p25. apply fp_of_0. rewrite Z.mul_comm. apply Z.mod_mul. discriminate.
Qed.
Lemma mr_fun a x y : mr a x -> mr a y -> x = y.
Proof. intros [_ <-] [_ <-]. reflexivity. Qed.
Lemma eqm_ok a b x y : mr a x -> mr b y -> eqm a b = true -> x = y.
Proof.
  intros Ha Hb H. unfold eqm in H. rewrite !orb_true_iff in H. destruct H as [[H|H]|H].
  - apply leq_ok in H. subst. eapply mr_fun; eassumption.
  - destruct (madd a (mc_M m25)) as [a'|] eqn:E; [|discriminate]. apply leq_ok in H. subst a'.
    apply (mr_add _ _ _ _ _ Ha mr_M) in E. rewrite <- (mr_fun _ _ _ E Hb). ring.
  - destruct (madd b (mc_M m25)) as [b'|] eqn:E; [|discriminate]. apply leq_ok in H. subst b'.
    apply (mr_add _ _ _ _ _ Hb mr_M) in E. rewrite (mr_fun _ _ _ Ha E). ring.
Qed.
Lemma h_one_mr : mr h_one (fz 1).
Proof.
  pose proof (c_of_rel m25 m25_ok 1) as H. change (fp_of (mc_p m25) 1) with (fz 1) in H.
  assert (E : c_of m25 1 = h_one) by (vm_compute; reflexivity). rewrite E in H. exact H.
Qed.
Lemma h_d_mr : mr h_d ed_d.
Proof.
  rewrite ed_d_val. pose proof (c_of_rel m25 m25_ok ed_dz) as H. change (fp_of (mc_p m25) ed_dz) with (fz ed_dz) in H.
  assert (E : c_of m25 ed_dz = h_d) by (vm_compute; reflexivity). rewrite E in H. exact H.
Qed.

Definition prl (l : lpt) (P : ed_pt) : Prop := mr (fst l) (fst P) /\ mr (snd l) (snd P).
Lemma h_B_prl : prl h_B ed_B.
Proof.
  split.
  - pose proof (c_of_rel m25 m25_ok 15112221349535400772501151409588531511454012693041857206046113283949847762202) as H.
    assert (E : c_of m25 15112221349535400772501151409588531511454012693041857206046113283949847762202 = fst h_B) by (vm_compute; reflexivity).
    rewrite E in H. exact H.
  - pose proof (c_of_rel m25 m25_ok 46316835694926478169428394003475163141307993866256225615783033603165251855960) as H.
    assert (E : c_of m25 46316835694926478169428394003475163141307993866256225615783033603165251855960 = snd h_B) by (vm_compute; reflexivity).
    rewrite E in H. exact H.
Qed.

Definition val_of (l : lpt) : ed_pt := (fz (lval (fst l) * mc_r m25), fz (lval (snd l) * mc_r m25)).
Definition normb (l : list int) : bool := (length l =? 10)%nat && forallb (fun x => (x <=? mask)%uint63) l.
Lemma normb_ok l : normb l = true -> mr l (fz (lval l * mc_r m25)).
Proof.
  intros H. unfold normb in H. apply andb_true_iff in H. destruct H as [H1 H2]. apply Nat.eqb_eq in H1.
  split; [|reflexivity]. split; [exact H1|]. apply forallb_bnd. exact H2.
Qed.

Notation mul := (c_mul m25).
Definition a_check (P1 P2 P3 : lpt) : bool :=
  let '(x1, y1) := P1 in let '(x2, y2) := P2 in let '(x3, y3) := P3 in
  normb x3 && normb y3 &&
  match (do a <- mul x1 y2; do b <- mul x2 y1; do c <- mul y1 y2; do e <- mul x1 x2;
         do de <- mul h_d e; do m <- mul de c;
         do n1 <- madd h_one m; do n2 <- c_sub m25 h_one m;
         do l1 <- mul x3 n1; do l2 <- mul y3 n2; do r1 <- madd a b; do r2 <- madd c e;
         Some (eqm l1 r1 && eqm l2 r2)) with
  | Some r => r
  | None => false
  end.

Ltac mstep H :=
  match type of H with
  | (match ?e with Some _ => _ | None => None end) = Some _ =>
      let E := fresh "E" in let v := fresh "v" in
      destruct e as [v|] eqn:E; [|discriminate H];
      first [ eapply mr_mul in E; [|eassumption|eassumption]
            | eapply mr_sub in E; [|eassumption|eassumption]
            | eapply mr_add in E; [|eassumption|eassumption] ]
  end.

Lemma div_intro (a b c : F25) : b <> fz 0 -> fp_mul c b = a -> c = fp_div a b.
Proof. intros N <-. field. exact N. Qed.

Lemma a_check_ok l1 l2 l3 P1 P2 : prl l1 P1 -> prl l2 P2 -> ed_on P1 -> ed_on P2 ->
  a_check l1 l2 l3 = true -> prl l3 (ed_add P1 P2).
Proof.
  destruct l1 as [x1 y1], l2 as [x2 y2], l3 as [x3 y3], P1 as [X1 Y1], P2 as [X2 Y2].
  intros [A1 A2] [B1 B2] O1 O2 H. cbn [fst snd] in *. unfold a_check in H.
  apply andb_true_iff in H. destruct H as [H H']. apply andb_true_iff in H. destruct H as [H3 H4].
  apply normb_ok in H3, H4. pose proof h_d_mr as Hd. pose proof h_one_mr as H1.
  set (X3 := fz (lval x3 * mc_r m25)) in *. set (Y3 := fz (lval y3 * mc_r m25)) in *. clearbody X3 Y3.
  match type of H' with (match ?e with _ => _ end) = true => destruct e as [r|] eqn:E; [|discriminate H'] end.
  subst r. repeat mstep E. injection E as E. apply andb_true_iff in E. destruct E as [EA EB].
  eapply eqm_ok in EA; [|eassumption|eassumption]. eapply eqm_ok in EB; [|eassumption|eassumption].
  destruct (ed_complete _ _ _ _ O1 O2) as [N1 N2]. cbv zeta in N1, N2.
  split; cbn [fst snd ed_add e_add].
  - replace (fp_div _ _) with X3; [exact H3|]. apply div_intro; [exact N1|]. exact EA.
  - replace (fp_div _ _) with Y3; [exact H4|]. apply div_intro; [exact N2|]. exact EB.
Qed.

(** ** The order of the base point *)
Fixpoint chain (l : lpt) (k : Z) (ops : list (bool * lpt)) : option (lpt * Z) :=
  match ops with
  | [] => Some (l, k)
  | (true, l') :: t => if a_check l l l' then chain l' (2 * k) t else None
  | (false, l') :: t => if a_check l h_B l' then chain l' (k + 1) t else None
  end.

Lemma ed_on_val x y : (y * y - x * x - (1 + ed_dz * (x * x) * (y * y))) mod p25 = 0 -> ed_on (fz x, fz y).
Proof.
  intros H. unfold ed_on, e_on. rewrite ed_d_val. rewrite <- !fp_of_mul, <- fp_of_sub, <- fp_of_add.
  apply fp_of_eq. apply Z.mod_divide in H; [|discriminate]. destruct H as [q E].
  replace (y * y - x * x) with (1 + ed_dz * (x * x) * (y * y) + q * p25) by lia. apply Z.mod_add. discriminate.
Qed.
Lemma ed_B_on : ed_on ed_B.
Proof. apply ed_on_val. vm_compute. reflexivity. Qed.
Lemma ed_mul_on k P : ed_on P -> ed_on (ed_mul k P).
Proof. exact (zmul_ok _ _ _ _ _ ed_group k P). Qed.

Lemma chain_ok ops : forall l k l' k', prl l (ed_mul k ed_B) -> chain l k ops = Some (l', k') -> prl l' (ed_mul k' ed_B).
Proof.
  induction ops as [|[[|] h] t IH]; intros l k l' k' Hl H; cbn [chain] in H.
  - injection H as <- <-. exact Hl.
  - destruct (a_check l l h) eqn:E; [|discriminate].
    eapply a_check_ok in E; [|exact Hl|exact Hl|apply ed_mul_on, ed_B_on|apply ed_mul_on, ed_B_on].
    eapply IH; [|exact H]. unfold ed_mul in *. rewrite (zmul_double _ _ _ _ _ ed_group) by exact ed_B_on. exact E.
  - destruct (a_check l h_B h) eqn:E; [|discriminate].
    eapply a_check_ok in E; [|exact Hl|exact h_B_prl|apply ed_mul_on, ed_B_on|exact ed_B_on].
    eapply IH; [|exact H]. unfold ed_mul in *.
    rewrite (zmul_add _ _ _ _ _ ed_group), (zmul_1 _ _ _ _ _ ed_group) by exact ed_B_on. exact E.
Qed.

Definition zero_b (r : option (lpt * Z)) : bool :=
  match r with Some (l, k) => (k =? ed_L) && eqm (fst l) (mc_M m25) && eqm (snd l) h_one | None => false end.
Lemma chain_L : zero_b (chain h_B 1 h_order) = true.
Proof. vm_cast_no_check (@eq_refl bool true). Qed.

Theorem ed_order : ed_mul ed_L ed_B = ed_zero.
Proof.
  pose proof chain_L as H. unfold zero_b in H. destruct (chain h_B 1 h_order) as [[l k]|] eqn:E; [|discriminate].
  rewrite !andb_true_iff in H. destruct H as [[H1 H2] H3]. apply Z.eqb_eq in H1. subst k.
  apply chain_ok in E; [|unfold ed_mul; rewrite (zmul_1 _ _ _ _ _ ed_group) by exact ed_B_on; exact h_B_prl].
  destruct E as [E1 E2]. destruct (ed_mul ed_L ed_B) as [x y]. cbn [fst snd] in *.
  apply (eqm_ok _ _ _ _ E1 mr_M) in H2. apply (eqm_ok _ _ _ _ E2 h_one_mr) in H3. subst. reflexivity.
Qed.
Lemma ed_B_ne : ed_B <> ed_zero.
Proof.
  intros E. assert (H : fval (fst ed_B) = fval (fst ed_zero)) by (f_equal; f_equal; exact E).
  vm_compute in H. discriminate H.
Qed.
