(** Proof method for the straight-line 64-bit code: the equations each
    instruction establishes, and polynomial normal forms for the registers. *)
Require Import ZArith List Bool Lia.
Require Import Verif.ModelW64.
Import ListNotations.
Open Scope Z_scope.

Definition B64 : Z := 2 ^ 64.
Lemma B64_pos : 0 < B64. Proof. reflexivity. Qed.

(** * The primitives *)
Lemma addcarryx_spec c a b : 0 <= c <= 1 -> 0 <= a < B64 -> 0 <= b < B64 ->
  let r := addcarryx c a b in
  fst r + B64 * snd r = c + a + b /\ 0 <= fst r < B64 /\ 0 <= snd r <= 1.
Proof.
  intros Hc Ha Hb. cbv zeta. unfold addcarryx, w64. fold B64. cbv zeta. cbn [fst snd].
  assert (HB : B64 = 18446744073709551616) by reflexivity. rewrite HB in *. clear HB.
  destruct (Z.ltb_spec ((a + (b + c) mod 18446744073709551616) mod 18446744073709551616) a);
  destruct (Z.ltb_spec ((b + c) mod 18446744073709551616) b); cbn [orb];
  Z.div_mod_to_equations; lia.
Qed.
Lemma subborrowx_spec c a b : 0 <= c <= 1 -> 0 <= a < B64 -> 0 <= b < B64 ->
  let r := subborrowx c a b in
  fst r - B64 * snd r = a - b - c /\ 0 <= fst r < B64 /\ 0 <= snd r <= 1.
Proof.
  intros Hc Ha Hb. cbv zeta. unfold subborrowx, w64. fold B64. cbv zeta. cbn [fst snd].
  assert (HB : B64 = 18446744073709551616) by reflexivity. rewrite HB in *. clear HB.
  destruct (Z.ltb_spec a ((a - (b + c) mod 18446744073709551616) mod 18446744073709551616));
  destruct (Z.ltb_spec ((b + c) mod 18446744073709551616) b); cbn [orb];
  Z.div_mod_to_equations; lia.
Qed.
Lemma mulx_spec a b : 0 <= a < B64 -> 0 <= b < B64 ->
  let r := mulx a b in
  fst r + B64 * snd r = a * b /\ 0 <= fst r < B64 /\ 0 <= snd r.
Proof.
  intros Ha Hb. cbv zeta. unfold mulx, w64, w32. rewrite !Z.shiftr_div_pow2 by lia.
  cbv zeta. cbn [fst snd]. set (w := 2 ^ 32) in *.
  assert (Hw : w = 4294967296) by reflexivity.
  assert (HB : 2 ^ 64 = w * w) by reflexivity.
  unfold B64 in *. rewrite HB in *. clearbody w.
  set (ah := a / w). set (al := a mod w). set (bh := b / w). set (bl := b mod w).
  assert (Ea : a = w * ah + al) by (apply Z.div_mod; lia).
  assert (Eb : b = w * bh + bl) by (apply Z.div_mod; lia).
  assert (0 <= al < w) by (apply Z.mod_pos_bound; lia).
  assert (0 <= bl < w) by (apply Z.mod_pos_bound; lia).
  assert (0 <= ah < w) by (split; [apply Z.div_pos; lia | apply Z.div_lt_upper_bound; lia]).
  assert (0 <= bh < w) by (split; [apply Z.div_pos; lia | apply Z.div_lt_upper_bound; lia]).
  clearbody ah al bh bl.
  rewrite (Z.mod_small ah w), (Z.mod_small bh w) by assumption.
  assert (P1 : 0 <= ah * bh <= (w - 1) * (w - 1)) by (clear - H1 H2; nia).
  assert (P2 : 0 <= ah * bl <= (w - 1) * (w - 1)) by (clear - H1 H0; nia).
  assert (P3 : 0 <= bh * al <= (w - 1) * (w - 1)) by (clear - H H2; nia).
  assert (P4 : 0 <= al * bl <= (w - 1) * (w - 1)) by (clear - H H0; nia).
  assert (Q : (w - 1) * (w - 1) < w * w) by (clear - Hw; nia).
  rewrite (Z.mod_small (ah * bh) (w * w)), (Z.mod_small (ah * bl) (w * w)),
    (Z.mod_small (bh * al) (w * w)), (Z.mod_small (al * bl) (w * w)) by lia.
  assert (Eab : a * b = w * w * (ah * bh) + w * (ah * bl) + w * (bh * al) + al * bl) by (subst; ring).
  rewrite Eab.
  generalize dependent (ah * bh). generalize dependent (ah * bl). generalize dependent (bh * al).
  generalize dependent (al * bl). intros ll P4 m2 P3 m1 P2 hh P1 Eab. clear Ea Eb Eab.
  assert (Em1 := Z.div_mod m1 w ltac:(lia)). assert (Em2 := Z.div_mod m2 w ltac:(lia)).
  assert (Ell := Z.div_mod ll w ltac:(lia)).
  assert (B1 := Z.mod_pos_bound m1 w ltac:(lia)). assert (B2 := Z.mod_pos_bound m2 w ltac:(lia)).
  assert (B3 := Z.mod_pos_bound ll w ltac:(lia)).
  generalize dependent (m1 mod w). generalize dependent (m2 mod w). generalize dependent (ll mod w).
  generalize dependent (m1 / w). generalize dependent (m2 / w). generalize dependent (ll / w).
  intros lh m2h m1h ll' E1 B1 m2l E2 B2 m1l E3 B3.
  assert (0 <= lh <= w - 2) by (clear - E1 B1 P4 Hw; nia).
  assert (0 <= m2h <= w - 2) by (clear - E2 B2 P3 Hw; nia).
  assert (0 <= m1h <= w - 2) by (clear - E3 B3 P2 Hw; nia).
  assert (Q2 : 4 * w < w * w) by (clear - Hw; nia).
  rewrite (Z.mod_small (m1l + m2l) (w * w)) by lia.
  rewrite (Z.mod_small (m1l + m2l + lh) (w * w)) by lia.
  set (c := (m1l + m2l + lh) / w).
  assert (Ec : m1l + m2l + lh = w * c + (m1l + m2l + lh) mod w) by (apply Z.div_mod; lia).
  assert (Bc := Z.mod_pos_bound (m1l + m2l + lh) w ltac:(lia)).
  generalize dependent ((m1l + m2l + lh) mod w). intros r Ec Bc. clearbody c.
  assert (Hc : 0 <= c <= 2) by (clear - Ec Bc H3 B2 B3 Hw; subst; lia).
  assert (Hhi : 0 <= hh + m1h + m2h + c < w * w).
  { split; [lia|]. assert ((w - 1) * (w - 1) = w * w - 2 * w + 1) by ring. lia. }
  rewrite (Z.mod_small (hh + m1h) (w * w)) by lia.
  rewrite (Z.mod_small (hh + m1h + m2h) (w * w)) by lia.
  rewrite (Z.mod_small (hh + m1h + m2h + c) (w * w)) by lia.
  assert (EE : w * w * hh + w * m1 + w * m2 + ll = (w * r + ll') + (hh + m1h + m2h + c) * (w * w)).
  { rewrite E1, E2, E3. replace m1l with (w * c + r - m2l - lh) by lia. ring. }
  assert (0 <= w * r + ll' < w * w) by (clear - B1 Bc; nia).
  rewrite EE, Z.mod_add by lia. rewrite (Z.mod_small (w * r + ll') (w * w)) by assumption.
  split; [ring | split; [assumption | lia]].
Qed.
Lemma cmovznz_spec c a b : 0 <= c <= 1 -> 0 <= a < B64 -> 0 <= b < B64 ->
  cmovznz c a b = if c =? 0 then a else b.
Proof.
  intros Hc Ha Hb. unfold cmovznz, w64. assert (E : c = 0 \/ c = 1) by lia.
  destruct E; subst c; cbn -[Z.land Z.lor].
  - rewrite Z.lor_0_l. change 18446744073709551615 with (Z.ones 64).
    rewrite Z.land_comm, Z.land_ones by lia. apply Z.mod_small. assumption.
  - rewrite Z.lor_0_r. change 18446744073709551615 with (Z.ones 64).
    rewrite Z.land_comm, Z.land_ones by lia. apply Z.mod_small. assumption.
Qed.

(** * What each instruction establishes about the final registers [e] *)
Definition irel (e : list Z) (n : nat) (i : ins) : Prop :=
  let r k := nth k e 0 in
  match i with
  | IMul a b => r n + B64 * r (S n) = oval e a * oval e b
  | IAddC c a b => r n + B64 * r (S n) = oval e c + oval e a + oval e b /\ 0 <= r (S n) <= 1
  | ISubB c a b => r n - B64 * r (S n) = oval e a - oval e b - oval e c /\ 0 <= r (S n) <= 1
  | ICmov c a b => r n = (if oval e c =? 0 then oval e a else oval e b) /\ 0 <= oval e c <= 1
  | IAdd a b => r n = oval e a + oval e b
  | IMov a => r n = oval e a
  end.
Definition ilen (i : ins) : nat := match i with IMul _ _ | IAddC _ _ _ | ISubB _ _ _ => 2 | _ => 1 end.
Fixpoint facts (e : list Z) (n : nat) (code : list ins) : Prop :=
  match code with
  | [] => True
  | i :: t => irel e n i /\ facts e (ilen i + n) t
  end.

(** * Upper bounds *)
Definition bopd (b : list Z) (o : opd) : option Z :=
  match o with
  | R n => nth_error b n
  | C k => if (0 <=? k) && (k <? B64) then Some k else None
  | N n k => match nth_error b n with
             | Some _ => if (0 <=? k) && (k <? B64) then Some k else None
             | None => None
             end
  end.
Definition bmap2 (f : Z -> Z -> option (list Z)) (x y : option Z) : option (list Z) :=
  match x, y with Some x, Some y => f x y | _, _ => None end.
Definition bmap3 (f : Z -> Z -> Z -> option (list Z)) (x y z : option Z) : option (list Z) :=
  match x, y, z with Some x, Some y, Some z => f x y z | _, _, _ => None end.
Definition bstep (b : list Z) (i : ins) : option (list Z) :=
  match i with
  | IMul x y => bmap2 (fun x y => Some [B64 - 1; x * y / B64]) (bopd b x) (bopd b y)
  | IAddC c x y => bmap3 (fun c x y => if c <=? 1 then Some [B64 - 1; 1] else None) (bopd b c) (bopd b x) (bopd b y)
  | ISubB c x y => bmap3 (fun c x y => if c <=? 1 then Some [B64 - 1; 1] else None) (bopd b c) (bopd b x) (bopd b y)
  | ICmov c x y => bmap3 (fun c x y => if c <=? 1 then Some [Z.max x y] else None) (bopd b c) (bopd b x) (bopd b y)
  | IAdd x y => bmap2 (fun x y => if x + y <? B64 then Some [x + y] else None) (bopd b x) (bopd b y)
  | IMov x => match bopd b x with Some x => Some [x] | None => None end
  end.
Fixpoint brun (b : list Z) (code : list ins) : option (list Z) :=
  match code with
  | [] => Some b
  | i :: t => match bstep b i with Some l => brun (b ++ l) t | None => None end
  end.

Definition wb (v b : Z) : Prop := 0 <= v <= b /\ b < B64.
Lemma bopd_ok x b o u : Forall2 wb x b -> bopd b o = Some u -> wb (oval x o) u.
Proof.
  intros F E. destruct o as [n|k|n k]; cbn [bopd oval] in E |- *.
  - clear - F E. revert n E. induction F as [|v c x b H F IH]; intros n E; destruct n; cbn in *; try discriminate.
    + injection E as <-. exact H.
    + apply IH. exact E.
  - destruct (Z.leb_spec 0 k); destruct (Z.ltb_spec k B64); cbn [andb] in E; try discriminate.
    injection E as <-. unfold wb. lia.
  - destruct (nth_error b n) as [w|] eqn:En; [|discriminate].
    assert (Hw : wb (nth n x 0) w).
    { clear - F En. revert n En. induction F as [|v c x b H F IH]; intros n E; destruct n; cbn in *; try discriminate.
      - injection E as <-. exact H.
      - apply IH. exact E. }
    destruct (Z.leb_spec 0 k); destruct (Z.ltb_spec k B64); cbn [andb] in E; try discriminate.
    injection E as <-. unfold wb in *. split; [|lia].
    split; [apply Z.land_nonneg; lia|].
    rewrite Z.land_comm. 
    assert (HL : Z.land k (nth n x 0) + Z.ldiff k (nth n x 0) = k).
    { rewrite Z.add_nocarry_lxor.
      - apply Z.bits_inj'. intros i Hi. rewrite Z.lxor_spec, Z.land_spec, Z.ldiff_spec.
        destruct (Z.testbit k i), (Z.testbit (nth n x 0) i); reflexivity.
      - apply Z.bits_inj'. intros i Hi. rewrite Z.land_spec, Z.land_spec, Z.ldiff_spec, Z.bits_0.
        destruct (Z.testbit k i), (Z.testbit (nth n x 0) i); reflexivity. }
    assert (0 <= Z.ldiff k (nth n x 0)) by (apply Z.ldiff_nonneg; lia). lia.
Qed.
Lemma bopd_lt b o u n k : bopd b o = Some u -> (o = R n \/ o = N n k) -> (n < length b)%nat.
Proof.
  intros E [->| ->]; cbn in E.
  - apply nth_error_Some. congruence.
  - destruct (nth_error b n) eqn:En; [|discriminate]. apply nth_error_Some. congruence.
Qed.
Lemma oval_app x y b o u : length x = length b -> bopd b o = Some u -> oval (x ++ y) o = oval x o.
Proof.
  intros L E. destruct o as [n|k|n k]; cbn.
  - apply app_nth1. rewrite L. exact (bopd_lt b _ u n 0 E (or_introl eq_refl)).
  - reflexivity.
  - f_equal. apply app_nth1. rewrite L. exact (bopd_lt b _ u n k E (or_intror eq_refl)).
Qed.
Lemma fold_istep_prefix code x : exists t, fold_left istep code x = x ++ t.
Proof.
  revert x. induction code as [|i code IH]; intros x; cbn.
  - exists []. symmetry. apply app_nil_r.
  - destruct (IH (istep x i)) as [t E]. rewrite E. unfold istep at 1. rewrite <- app_assoc. eexists. reflexivity.
Qed.
Lemma nth_app0 (x : list Z) y z t n : n = length x -> nth n (x ++ y :: z ++ t) 0 = y.
Proof. intros ->. rewrite app_nth2, Nat.sub_diag by lia. reflexivity. Qed.
Lemma nth_app1 (x : list Z) y z t n : n = length x -> nth (S n) (x ++ y :: z :: t) 0 = z.
Proof. intros ->. rewrite app_nth2 by lia. replace (S (length x) - length x)%nat with 1%nat by lia. reflexivity. Qed.

Theorem brun_facts code : forall x b b', Forall2 wb x b -> brun b code = Some b' ->
  let e := fold_left istep code x in
  facts e (length x) code /\ Forall2 wb e b'.
Proof.
  induction code as [|i code IH]; intros x b b' F E; cbn in E |- *.
  - injection E as <-. split; [exact I | exact F].
  - destruct (bstep b i) as [l|] eqn:Es; [|discriminate].
    assert (L : length x = length b) by (clear - F; induction F; cbn; congruence).
    destruct (fold_istep_prefix code (istep x i)) as [t Ht].
    assert (K : exists d, istep x i = x ++ d /\ length d = ilen i /\ Forall2 wb d l /\
                irel (x ++ d ++ t) (length x) i).
    { assert (HB : B64 = 18446744073709551616) by reflexivity.
      unfold istep. eexists. split; [reflexivity|].
      destruct i as [a1 a2|c a1 a2|c a1 a2|c a1 a2|a1 a2|a1]; cbn [bstep] in Es; cbn [ilen irel];
      unfold bmap2, bmap3 in Es;
      try (destruct (bopd b c) as [uc|] eqn:Ec; [|discriminate]);
      (destruct (bopd b a1) as [u1|] eqn:E1; [|discriminate]);
      try (destruct (bopd b a2) as [u2|] eqn:E2; [|discriminate]);
      repeat match goal with
      | H : bopd b ?o = Some ?u |- _ =>
          match goal with
          | _ : wb (oval x o) u |- _ => fail 1
          | _ => pose proof (bopd_ok x b o u F H)
          end
      end.
      - injection Es as <-. destruct (mulx_spec (oval x a1) (oval x a2)) as (S1 & S2 & S3); [unfold wb in *; lia | unfold wb in *; lia|].
        split; [reflexivity|]. unfold pair2.
        rewrite (oval_app x _ b a1 u1 L E1), (oval_app x _ b a2 u2 L E2).
        cbn [app]. rewrite (nth_app1 x _ _ t _ eq_refl).
        rewrite (nth_app0 x _ [snd (mulx (oval x a1) (oval x a2))] t _ eq_refl).
        split; [|exact S1].
        constructor; [unfold wb; lia | constructor; [|constructor]].
        unfold wb in *.
        assert (P : 0 <= oval x a1 * oval x a2 <= u1 * u2) by (clear - H H0; nia).
        assert (u1 * u2 < B64 * B64) by (clear - H H0; nia).
        split; [split; [exact S3|]|].
        + apply Z.div_le_lower_bound; [apply B64_pos | lia].
        + apply Z.div_lt_upper_bound; [apply B64_pos | lia].
      - destruct (Z.leb_spec uc 1); [|discriminate]. injection Es as <-.
        destruct (addcarryx_spec (oval x c) (oval x a1) (oval x a2)) as (S1 & S2 & S3); [unfold wb in *; lia .. |].
        split; [reflexivity|]. unfold pair2.
        rewrite (oval_app x _ b c uc L Ec), (oval_app x _ b a1 u1 L E1), (oval_app x _ b a2 u2 L E2).
        cbn [app]. rewrite (nth_app1 x _ _ t _ eq_refl).
        rewrite (nth_app0 x _ [snd (addcarryx (oval x c) (oval x a1) (oval x a2))] t _ eq_refl).
        split; [|split; [exact S1 | exact S3]].
        constructor; [unfold wb; lia | constructor; [unfold wb; split; [lia | reflexivity]|constructor]].
      - destruct (Z.leb_spec uc 1); [|discriminate]. injection Es as <-.
        destruct (subborrowx_spec (oval x c) (oval x a1) (oval x a2)) as (S1 & S2 & S3); [unfold wb in *; lia .. |].
        split; [reflexivity|]. unfold pair2.
        rewrite (oval_app x _ b c uc L Ec), (oval_app x _ b a1 u1 L E1), (oval_app x _ b a2 u2 L E2).
        cbn [app]. rewrite (nth_app1 x _ _ t _ eq_refl).
        rewrite (nth_app0 x _ [snd (subborrowx (oval x c) (oval x a1) (oval x a2))] t _ eq_refl).
        split; [|split; [exact S1 | exact S3]].
        constructor; [unfold wb; lia | constructor; [unfold wb; split; [lia | reflexivity]|constructor]].
      - destruct (Z.leb_spec uc 1); [|discriminate]. injection Es as <-.
        assert (S1 := cmovznz_spec (oval x c) (oval x a1) (oval x a2) ltac:(unfold wb in *; lia) ltac:(unfold wb in *; lia) ltac:(unfold wb in *; lia)).
        split; [reflexivity|].
        rewrite (oval_app x _ b c uc L Ec), (oval_app x _ b a1 u1 L E1), (oval_app x _ b a2 u2 L E2).
        cbn [app]. rewrite (nth_app0 x _ [] t _ eq_refl). cbn [app].
        split; [|split; [exact S1 | unfold wb in *; lia]].
        constructor; [|constructor]. rewrite S1. unfold wb in *. destruct (oval x c =? 0); lia.
      - destruct (Z.ltb_spec (u1 + u2) B64) as [Hs|]; [|discriminate]. injection Es as <-.
        assert (S1 : w64 (oval x a1 + oval x a2) = oval x a1 + oval x a2).
        { unfold w64. fold B64. apply Z.mod_small. unfold wb in *. lia. }
        split; [reflexivity|].
        rewrite (oval_app x _ b a1 u1 L E1), (oval_app x _ b a2 u2 L E2).
        cbn [app]. rewrite (nth_app0 x _ [] t _ eq_refl). cbn [app].
        split; [|exact S1].
        constructor; [|constructor]. rewrite S1. unfold wb in *. lia.
      - injection Es as <-.
        split; [reflexivity|].
        rewrite (oval_app x _ b a1 u1 L E1).
        cbn [app]. rewrite (nth_app0 x _ [] t _ eq_refl). cbn [app].
        split; [|reflexivity]. constructor; [assumption|constructor]. }
    destruct K as (d & Ed & Ld & Fd & Rd). rewrite Ed in Ht |- *. rewrite <- app_assoc in Ht.
    specialize (IH (x ++ d) (b ++ l) b' (Forall2_app F Fd) E). cbn zeta in IH. rewrite Ht in IH |- *.
    destruct IH as [IH1 IH2]. rewrite app_length, Ld, Nat.add_comm in IH1.
    split; [split; [exact Rd | exact IH1] | exact IH2].
Qed.

(** * Polynomial normal forms *)
(** A monomial is a pair of variables; variable 0 is the constant 1 and variable
    n+1 is register n. *)
Definition mono : Type := (Z * Z)%type.
Definition poly : Type := list (mono * Z).
Definition vv (e : list Z) (i : Z) : Z := if i =? 0 then 1 else nth (Z.to_nat (i - 1)) e 0.
Definition mval (e : list Z) (m : mono) : Z := vv e (fst m) * vv e (snd m).
Fixpoint peval (e : list Z) (p : poly) : Z :=
  match p with [] => 0 | (m, c) :: t => c * mval e m + peval e t end.
Definition mcmp (a b : mono) : comparison :=
  match fst a ?= fst b with Eq => snd a ?= snd b | c => c end.
Fixpoint pins (m : mono) (c : Z) (p : poly) : poly :=
  match p with
  | [] => if c =? 0 then [] else [(m, c)]
  | (m', c') :: t =>
      match mcmp m m' with
      | Lt => if c =? 0 then p else (m, c) :: p
      | Eq => if c + c' =? 0 then t else (m, c + c') :: t
      | Gt => (m', c') :: pins m c t
      end
  end.
Definition padd (p q : poly) : poly := fold_right (fun t a => pins (fst t) (snd t) a) q p.
Definition pscale (k : Z) (p : poly) : poly := map (fun t => (fst t, k * snd t)) p.
Definition pvar (n : nat) : poly := [((Z.of_nat (S n), 0), 1)].
Definition pconst (k : Z) : poly := if k =? 0 then [] else [((0, 0), k)].
Definition mmul (a b : mono) : option mono :=
  if (snd a =? 0) && (snd b =? 0) then Some (Z.max (fst a) (fst b), Z.min (fst a) (fst b))
  else if fst b =? 0 then (if snd b =? 0 then Some a else None)
  else if fst a =? 0 then (if snd a =? 0 then Some b else None)
  else None.
Fixpoint pmul1 (m : mono) (c : Z) (q : poly) (acc : poly) : option poly :=
  match q with
  | [] => Some acc
  | (m', c') :: t => match mmul m m' with
                     | Some mm => pmul1 m c t (pins mm (c * c') acc)
                     | None => None
                     end
  end.
Fixpoint pmul (p q : poly) : option poly :=
  match p with
  | [] => Some []
  | (m, c) :: t => match pmul t q with Some acc => pmul1 m c q acc | None => None end
  end.

Lemma pins_ok e m c p : peval e (pins m c p) = c * mval e m + peval e p.
Proof.
  induction p as [|[m' c'] t IH]; cbn.
  - destruct (Z.eqb_spec c 0); subst; cbn; ring.
  - destruct (mcmp m m') eqn:Em.
    + assert (m = m') as ->.
      { unfold mcmp in Em. destruct m as [a b], m' as [a' b']. cbn in Em.
        destruct (Z.compare_spec a a'); try discriminate.
        destruct (Z.compare_spec b b'); try discriminate. congruence. }
      destruct (Z.eqb_spec (c + c') 0) as [H|H]; cbn; [|ring].
      replace c' with (- c) by lia. ring.
    + destruct (Z.eqb_spec c 0); subst; cbn; ring.
    + cbn. rewrite IH. ring.
Qed.
Lemma padd_ok e p q : peval e (padd p q) = peval e p + peval e q.
Proof. induction p as [|[m c] t IH]; cbn; [ring|]. fold (padd t q). rewrite pins_ok, IH. ring. Qed.
Lemma pscale_ok e k p : peval e (pscale k p) = k * peval e p.
Proof. induction p as [|[m c] t IH]; cbn; [ring|]. fold (pscale k t). rewrite IH. ring. Qed.
Lemma pvar_ok e n : peval e (pvar n) = nth n e 0.
Proof.
  unfold pvar. cbn [peval]. unfold mval. cbn [fst snd]. unfold vv.
  replace (Z.of_nat (S n) =? 0) with false by (symmetry; apply Z.eqb_neq; lia).
  rewrite Z.eqb_refl. replace (Z.to_nat (Z.of_nat (S n) - 1)) with n by lia. ring.
Qed.
Lemma pconst_ok e k : peval e (pconst k) = k.
Proof. unfold pconst. destruct (Z.eqb_spec k 0); subst; cbn; [reflexivity|]. unfold mval, vv. cbn. ring. Qed.
Lemma vv_minmax e a b : vv e (Z.max a b) * vv e (Z.min a b) = vv e a * vv e b.
Proof.
  destruct (Z.le_gt_cases a b).
  - rewrite Z.max_r, Z.min_l by lia. ring.
  - rewrite Z.max_l, Z.min_r by lia. ring.
Qed.
Lemma mmul_ok e a b m : mmul a b = Some m -> mval e m = mval e a * mval e b.
Proof.
  unfold mmul. destruct a as [a a'], b as [b b']. cbn [fst snd]. assert (V : vv e 0 = 1) by reflexivity.
  destruct (Z.eqb_spec a' 0) as [Ha|Ha], (Z.eqb_spec b' 0) as [Hb|Hb]; cbn [andb].
  - intros H. injection H as <-. unfold mval. cbn [fst snd]. rewrite vv_minmax, Ha, Hb, V. ring.
  - destruct (Z.eqb_spec b 0); [discriminate|]. destruct (Z.eqb_spec a 0) as [E|]; [|discriminate].
    intros H. injection H as <-. unfold mval. cbn [fst snd]. rewrite Ha, E, V. ring.
  - destruct (Z.eqb_spec b 0) as [E|].
    + intros H. injection H as <-. unfold mval. cbn [fst snd]. rewrite Hb, E, V. ring.
    + destruct (Z.eqb_spec a 0); discriminate.
  - destruct (Z.eqb_spec b 0); [discriminate|]. destruct (Z.eqb_spec a 0); discriminate.
Qed.
Lemma pmul1_ok e m c q acc r : pmul1 m c q acc = Some r -> peval e r = c * mval e m * peval e q + peval e acc.
Proof.
  revert acc. induction q as [|[m' c'] t IH]; intros acc H; cbn in H |- *.
  - injection H as <-. ring.
  - destruct (mmul m m') as [mm|] eqn:E; [|discriminate]. rewrite (IH _ H), pins_ok, (mmul_ok e _ _ _ E). ring.
Qed.
Lemma pmul_ok e p q r : pmul p q = Some r -> peval e r = peval e p * peval e q.
Proof.
  revert r. induction p as [|[m c] t IH]; intros r H; cbn in H |- *.
  - injection H as <-. reflexivity.
  - destruct (pmul t q) as [a|]; [|discriminate]. rewrite (pmul1_ok e _ _ _ _ _ H), (IH a eq_refl). ring.
Qed.

Definition popd (ps : list poly) (o : opd) : option poly :=
  match o with R n => nth_error ps n | C k => Some (pconst k) | N _ _ => None end.
Definition padd3 (a b c : poly) : poly := padd a (padd b c).
Definition pstep (ps : list poly) (i : ins) : option (list poly) :=
  let n := length ps in
  match i with
  | IMul a b => match popd ps a, popd ps b with
                | Some a, Some b => match pmul a b with
                                    | Some ab => Some [padd (pscale (- B64) (pvar (S n))) ab; pvar (S n)]
                                    | None => None
                                    end
                | _, _ => None
                end
  | IAddC c a b => match popd ps c, popd ps a, popd ps b with
                   | Some c, Some a, Some b => Some [padd (pscale (- B64) (pvar (S n))) (padd3 c a b); pvar (S n)]
                   | _, _, _ => None
                   end
  | ISubB c a b => match popd ps c, popd ps a, popd ps b with
                   | Some c, Some a, Some b => Some [padd (pscale B64 (pvar (S n))) (padd3 (pscale (-1) c) (pscale (-1) b) a); pvar (S n)]
                   | _, _, _ => None
                   end
  | ICmov _ _ _ => Some [pvar n]
  | IAdd a b => match popd ps a, popd ps b with Some a, Some b => Some [padd a b] | _, _ => None end
  | IMov a => match popd ps a with Some a => Some [a] | None => None end
  end.
Fixpoint prun (ps : list poly) (code : list ins) : option (list poly) :=
  match code with
  | [] => Some ps
  | i :: t => match pstep ps i with Some l => prun (ps ++ l) t | None => None end
  end.
Definition pok (e : list Z) (ps : list poly) : Prop :=
  forall n p, nth_error ps n = Some p -> nth n e 0 = peval e p.
Lemma popd_ok e ps o p : pok e ps -> popd ps o = Some p -> oval e o = peval e p.
Proof.
  intros H E. destruct o as [n|k|n k]; cbn in *; [apply H; exact E | injection E as <-; symmetry; apply pconst_ok | discriminate].
Qed.
Lemma pok_app e ps l : pok e ps -> (forall k p, nth_error l k = Some p -> nth (k + length ps) e 0 = peval e p) -> pok e (ps ++ l).
Proof.
  intros H K n p E. destruct (Nat.lt_ge_cases n (length ps)) as [L|L].
  - rewrite nth_error_app1 in E by exact L. apply H. exact E.
  - rewrite nth_error_app2 in E by exact L. specialize (K _ _ E). replace (n - length ps + length ps)%nat with n in K by lia. exact K.
Qed.
Lemma some_inj {A} (a b : A) : Some a = Some b -> a = b.
Proof. congruence. Qed.
Theorem prun_ok e code : forall ps ps', facts e (length ps) code -> pok e ps -> prun ps code = Some ps' -> pok e ps'.
Proof.
  induction code as [|i code IH]; intros ps ps' F P E; cbn in E.
  - injection E as <-. exact P.
  - destruct (pstep ps i) as [l|] eqn:Es; [|discriminate]. destruct F as [F1 F2].
    assert (K : length l = ilen i /\ forall k p, nth_error l k = Some p -> nth (k + length ps) e 0 = peval e p).
    { destruct i as [a b|c a b|c a b|c a b|a b|a]; cbn [pstep] in Es; cbn [irel] in F1; cbn [ilen].
      - destruct (popd ps a) as [pa|] eqn:Ea; [|discriminate]. destruct (popd ps b) as [pb|] eqn:Eb; [|discriminate].
        destruct (pmul pa pb) as [pab|] eqn:Em; [|discriminate]. apply some_inj in Es; subst l.
        rewrite (popd_ok e ps a pa P Ea), (popd_ok e ps b pb P Eb), <- (pmul_ok e _ _ _ Em) in F1.
        split; [reflexivity|]. intros [|[|k]] p H; cbn [nth_error] in H; [ | |destruct k; discriminate]; apply some_inj in H; subst p.
        + rewrite padd_ok, pscale_ok, pvar_ok. cbn [plus]. lia.
        + rewrite pvar_ok. reflexivity.
      - destruct (popd ps c) as [pc|] eqn:Ec; [|discriminate]. destruct (popd ps a) as [pa|] eqn:Ea; [|discriminate]. destruct (popd ps b) as [pb|] eqn:Eb; [|discriminate].
        apply some_inj in Es; subst l.
        rewrite (popd_ok e ps c pc P Ec), (popd_ok e ps a pa P Ea), (popd_ok e ps b pb P Eb) in F1.
        split; [reflexivity|]. intros [|[|k]] p H; cbn [nth_error] in H; [ | |destruct k; discriminate]; apply some_inj in H; subst p.
        + unfold padd3. rewrite !padd_ok, pscale_ok, pvar_ok. cbn [plus]. lia.
        + rewrite pvar_ok. reflexivity.
      - destruct (popd ps c) as [pc|] eqn:Ec; [|discriminate]. destruct (popd ps a) as [pa|] eqn:Ea; [|discriminate]. destruct (popd ps b) as [pb|] eqn:Eb; [|discriminate].
        apply some_inj in Es; subst l.
        rewrite (popd_ok e ps c pc P Ec), (popd_ok e ps a pa P Ea), (popd_ok e ps b pb P Eb) in F1.
        split; [reflexivity|]. intros [|[|k]] p H; cbn [nth_error] in H; [ | |destruct k; discriminate]; apply some_inj in H; subst p.
        + unfold padd3. rewrite !padd_ok, !pscale_ok, pvar_ok. cbn [plus]. lia.
        + rewrite pvar_ok. reflexivity.
      - apply some_inj in Es; subst l. split; [reflexivity|]. intros [|k] p H; cbn [nth_error] in H; [|destruct k; discriminate]. apply some_inj in H; subst p.
        rewrite pvar_ok. reflexivity.
      - destruct (popd ps a) as [pa|] eqn:Ea; [|discriminate]. destruct (popd ps b) as [pb|] eqn:Eb; [|discriminate].
        apply some_inj in Es; subst l. rewrite (popd_ok e ps a pa P Ea), (popd_ok e ps b pb P Eb) in F1.
        split; [reflexivity|]. intros [|k] p H; cbn [nth_error] in H; [|destruct k; discriminate]. apply some_inj in H; subst p.
        rewrite padd_ok. exact F1.
      - destruct (popd ps a) as [pa|] eqn:Ea; [|discriminate]. apply some_inj in Es; subst l.
        rewrite (popd_ok e ps a pa P Ea) in F1.
        split; [reflexivity|]. intros [|k] p H; cbn [nth_error] in H; [|destruct k; discriminate]. apply some_inj in H; subst p. exact F1. }
    destruct K as [Kl K]. eapply IH; [ | |exact E].
    + rewrite app_length, Kl, Nat.add_comm. exact F2.
    + apply pok_app; assumption.
Qed.
Definition pinit (n : nat) : list poly := map pvar (seq 0 n).
Lemma pinit_ok e n : pok e (pinit n).
Proof.
  intros k p H. unfold pinit in H. rewrite nth_error_map in H.
  destruct (nth_error (seq 0 n) k) as [v|] eqn:E; [|discriminate]. injection H as <-.
  assert (k < length (seq 0 n))%nat by (apply nth_error_Some; congruence). rewrite seq_length in H.
  rewrite (nth_error_nth' _ 0%nat) in E by (rewrite seq_length; lia). rewrite seq_nth in E by lia.
  injection E as <-. rewrite pvar_ok. reflexivity.
Qed.
Lemma pinit_length n : length (pinit n) = n.
Proof. unfold pinit. rewrite map_length. apply seq_length. Qed.

(** Divisibility of a normal form by the word base. *)
Definition pdiv (k : Z) (p : poly) : bool := forallb (fun t => snd t mod k =? 0) p.
Lemma pdiv_ok e k p : 0 < k -> pdiv k p = true -> peval e p mod k = 0.
Proof.
  intros Hk. induction p as [|[m c] t IH]; cbn; intros H; [reflexivity|].
  apply andb_true_iff in H. destruct H as [H1 H2]. apply Z.eqb_eq in H1. specialize (IH H2).
  apply Z.mod_divide in H1; [|lia]. apply Z.mod_divide in IH; [|lia]. apply Z.mod_divide; [lia|].
  apply Z.divide_add_r; [apply Z.divide_mul_l; exact H1 | exact IH].
Qed.
