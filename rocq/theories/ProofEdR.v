(** The scalar arithmetic modulo the group order: ScReduce, ScMulAdd and
    x25519_sc_reduce. *)
Require Import ZArith List Lia Bool Znumtheory.
Require Import Verif.Base Verif.Words Verif.SpecEd Verif.ModelSlp Verif.ModelEdCode Verif.ModelEd Verif.ProofSlp Verif.ProofEdF.
Import ListNotations.
Open Scope Z_scope.

(** ** Loading the limbs *)
Fixpoint weights (w : Z) (ks : list Z) : list Z :=
  match ks with [] => [] | k :: ks' => w :: weights (w * 2 ^ k) ks' end.
Lemma cat_weights ks : forall w x, w * cat ks x = dot (weights w ks) x.
Proof.
  induction ks as [|k ks IH]; intros w [|v x]; cbn [cat weights dot]; try lia.
  rewrite <- (IH (w * 2 ^ k) x). ring.
Qed.
Lemma ld_top b off n sh : bytes_ok b -> 0 <= sh -> sh <= 8 * Z.of_nat n ->
  ld b (off, n, sh, -1) = (le2z b / 2 ^ (8 * Z.of_nat off + sh)) mod 2 ^ (8 * Z.of_nat n - sh).
Proof.
  intros Hb Hs Hn. unfold ld. rewrite Z.land_m1_l, loadn_val by exact Hb. rewrite !pow256, Z.shiftr_div_pow2 by lia.
  apply Z.bits_inj'. intros i Hi. destruct (Z_lt_ge_dec i (8 * Z.of_nat n - sh)) as [L|L].
  - rewrite !Z.mod_pow2_bits_low by lia. rewrite !Z.div_pow2_bits by lia.
    rewrite Z.mod_pow2_bits_low by lia. rewrite Z.div_pow2_bits by lia. f_equal. lia.
  - rewrite Z.mod_pow2_bits_high by lia. rewrite Z.div_pow2_bits by lia. rewrite Z.mod_pow2_bits_high by lia. reflexivity.
Qed.
Definition ldt_ok (k pos : Z) (l : load) : bool :=
  ld_ok k pos l ||
  (let '(off, n, sh, m) := l in (0 <=? sh) && (0 <=? k) && (8 * Z.of_nat off + sh =? pos) && (m =? -1) && (8 * Z.of_nat n - sh =? k)).
Lemma ldt_val b k pos l : bytes_ok b -> ldt_ok k pos l = true -> ld b l = (le2z b / 2 ^ pos) mod 2 ^ k.
Proof.
  unfold ldt_ok. intros Hb H. apply orb_prop in H. destruct H as [H|H]; [now apply ld_val|].
  destruct l as [[[off n] sh] m]. rewrite !andb_true_iff, !Z.leb_le, !Z.eqb_eq in H. destruct H as ((((Hs & Hk) & Hp) & ->) & Hn).
  rewrite <- Hp, <- Hn. apply ld_top; [exact Hb|lia|lia].
Qed.
Fixpoint lds_ok (pos : Z) (ks : list Z) (ls : list load) : bool :=
  match ks, ls with
  | k :: ks', l :: ls' => (0 <=? k) && ldt_ok k pos l && lds_ok (pos + k) ks' ls'
  | [], [] => true
  | _, _ => false
  end.
Definition sum (ks : list Z) : Z := fold_right Z.add 0 ks.
Lemma lds_val b : bytes_ok b -> forall ks ls pos, 0 <= pos -> lds_ok pos ks ls = true ->
  Forall2 limb_ok ks (map (ld b) ls) /\ 0 <= sum ks /\ cat ks (map (ld b) ls) = (le2z b / 2 ^ pos) mod 2 ^ sum ks.
Proof.
  intros Hb. induction ks as [|k ks IH]; intros [|l ls] pos Hpos H; try discriminate H.
  - split; [constructor|]. split; [cbn; lia|]. cbn. now rewrite Z.mod_1_r.
  - cbn [lds_ok] in H. rewrite !andb_true_iff, Z.leb_le in H. destruct H as ((Hk & Hl) & Hr).
    destruct (IH ls (pos + k) ltac:(lia) Hr) as (A & S0 & B). cbn [map cat]. change (sum (k :: ks)) with (k + sum ks).
    pose proof (ldt_val b k pos l Hb Hl) as E.
    assert (P : 0 < 2 ^ k) by (apply Z.pow_pos_nonneg; lia).
    assert (P' : 0 < 2 ^ sum ks) by (apply Z.pow_pos_nonneg; lia).
    split; [|split; [lia|]].
    + constructor; [|exact A]. unfold limb_ok. rewrite E. now apply Z.mod_pos_bound.
    + rewrite E, B, Z.pow_add_r by lia. rewrite (Z.pow_add_r 2 k) by lia.
      assert (0 < 2 ^ pos) by (apply Z.pow_pos_nonneg; lia).
      rewrite <- Z.div_div by lia. rewrite Z.rem_mul_r by lia. reflexivity.
Qed.
Lemma limb_inL ks x : Forall2 limb_ok ks x -> inL (map (fun k => (0, 2 ^ k - 1)) ks) x.
Proof. intros H. induction H as [|k v ks x Hv H IH]; constructor; [|exact IH]. unfold limb_ok in Hv. unfold inI. cbn [fst snd]. lia. Qed.

(** ** The weights of the 24 limbs, and the two final passes *)
Definition w24 : list Z := Eval vm_compute in weights 1 (repeat 21 24).
Definition foldc : list (nat * Z) := [(0%nat, 666643); (1%nat, 470296); (2%nat, 654183); (3%nat, -997805); (4%nat, 136657); (5%nat, -683901)].
Definition pass1 : list instr := map (fun i => Carry 0 21 i (i + 1) 1) (seq 0 12).
Definition pass2 : list instr := map (fun i => Carry 0 21 i (i + 1) 1) (seq 0 11).

Definition canon12 (top : itv) : list itv := repeat (0, 2 ^ 21 - 1) 12 ++ top :: repeat (0, 0) 11.
Definition canon11 (top : itv) : list itv := repeat (0, 2 ^ 21 - 1) 11 ++ top :: repeat (0, 0) 12.
Definition mid : Z := 2 ^ 231.

Lemma w24_len : length w24 = 24%nat. Proof. reflexivity. Qed.

Lemma dot_canon12 top x : inL (canon12 top) x -> exists low, 0 <= low < 2 ^ 252 /\ dot w24 x = low + 2 ^ 252 * nth 12 x 0.
Proof.
  intros H.
  assert (HL : length x = 24%nat) by (rewrite (inL_length _ _ H); reflexivity).
  assert (Z0 : inL (canon12 (0, 0)) (upd 12 0 x)).
  { replace (canon12 (0, 0)) with (updI 12 (0, 0) (canon12 top)) by reflexivity. apply inL_upd; [exact H|unfold inI; cbn; lia]. }
  exists (dot w24 (upd 12 0 x)). split.
  - pose proof (dotI_ok w24 _ _ Z0) as D. unfold inI in D.
    replace (dotI w24 (canon12 (0, 0))) with (0, 2 ^ 252 - 1) in D by (vm_compute; reflexivity). cbn [fst snd] in D. lia.
  - rewrite dot_upd by (rewrite ?w24_len, ?HL; lia). replace (nth 12 w24 0) with (2 ^ 252) by reflexivity. ring.
Qed.
Lemma dot_canon11 top x : inL (canon11 top) x -> exists low, 0 <= low < mid /\ dot w24 x = low + mid * nth 11 x 0.
Proof.
  intros H.
  assert (HL : length x = 24%nat) by (rewrite (inL_length _ _ H); reflexivity).
  assert (Z0 : inL (canon11 (0, 0)) (upd 11 0 x)).
  { replace (canon11 (0, 0)) with (updI 11 (0, 0) (canon11 top)) by reflexivity. apply inL_upd; [exact H|unfold inI; cbn; lia]. }
  exists (dot w24 (upd 11 0 x)). split.
  - pose proof (dotI_ok w24 _ _ Z0) as D. unfold inI in D.
    replace (dotI w24 (canon11 (0, 0))) with (0, mid - 1) in D by (vm_compute; reflexivity). cbn [fst snd] in D. unfold mid in *. lia.
  - rewrite dot_upd by (rewrite ?w24_len, ?HL; lia). replace (nth 11 w24 0) with mid by reflexivity. ring.
Qed.

Definition ks24 : list Z := repeat 21 11 ++ 22 :: repeat 0 12.
Lemma canon_limbs24 x : inL (canon11 (0, 2 ^ 21)) x -> Forall2 limb_ok ks24 x.
Proof.
  intros H. unfold inL in H.
  assert (G : forall Is ks x, Forall2 inI Is x -> Forall2 (fun (J : itv) k => 0 <= fst J /\ snd J < 2 ^ k) Is ks -> Forall2 limb_ok ks x).
  { clear. intros Is ks x H. revert ks. induction H as [|J v Is x HJ H IH]; intros ks HK; inversion HK; subst; constructor.
    - unfold limb_ok, inI in *. lia. - now apply IH. }
  apply (G _ _ _ H). unfold canon11, ks24. repeat constructor; cbn; lia.
Qed.
Lemma cat_ks24 x : inL (canon11 (0, 2 ^ 21)) x -> cat ks24 x = dot w24 x.
Proof.
  intros H. rewrite <- (Z.mul_1_l (cat ks24 x)), cat_weights.
  assert (HL : length x = 24%nat) by (rewrite (inL_length _ _ H); reflexivity).
  assert (Z0 : forall i, (12 <= i < 24)%nat -> nth i x 0 = 0).
  { intros i Hi. pose proof (inL_nth _ _ i H ltac:(cbn; lia)) as D. unfold inI in D.
    do 24 (destruct i as [|i]; [try lia; cbn in D; lia|]). lia. }
  do 24 (destruct x as [|? x]; [discriminate HL|]). destruct x; [|discriminate HL].
  pose proof (Z0 12%nat ltac:(lia)). pose proof (Z0 13%nat ltac:(lia)). pose proof (Z0 14%nat ltac:(lia)). pose proof (Z0 15%nat ltac:(lia)).
  pose proof (Z0 16%nat ltac:(lia)). pose proof (Z0 17%nat ltac:(lia)). pose proof (Z0 18%nat ltac:(lia)). pose proof (Z0 19%nat ltac:(lia)).
  pose proof (Z0 20%nat ltac:(lia)). pose proof (Z0 21%nat ltac:(lia)). pose proof (Z0 22%nat ltac:(lia)). pose proof (Z0 23%nat ltac:(lia)).
  clear Z0 H HL. cbn [nth] in *. subst. unfold w24.
  replace (weights 1 ks24) with (firstn 12 w24 ++ repeat (2 ^ 253) 12) by (vm_compute; reflexivity).
  unfold w24. cbn [firstn app repeat dot]. ring.
Qed.

Definition out_lt : ed_L < 2 ^ 256. Proof. reflexivity. Qed.

Lemma exec_app a b x : exec 64 (a ++ b) x = exec 64 b (exec 64 a x).
Proof. apply fold_left_app. Qed.

Lemma zexec_cons s c x : zexec (s :: c) x = zexec c (zstep x s).
Proof. reflexivity. Qed.
Opaque exec zexec.

(** The whole tail: from limbs bounded by Is, with |value| < 2^252 *)
Section Tail.
Variables (Is : list itv) (t12 t11 : itv).
Hypothesis HI : length Is = 24%nat.
Hypothesis HD : (let '(l, h) := dotI w24 Is in (- 2 ^ 252 <=? l) && (h <? 2 ^ 252)) = true.
Hypothesis H1 : iexec 64 pass1 Is = Some (canon12 t12).
Hypothesis H2 : iexec 64 (Fold 12 foldc :: pass2) (canon12 t12) = Some (canon11 t11).

Lemma tail_ok x : inL Is x ->
  let z := exec 64 (pass1 ++ Fold 12 foldc :: pass2) x in
  inL (canon11 (0, 2 ^ 21)) z /\ dot w24 z = dot w24 x mod ed_L.
Proof using All.
  intros Hx z. destruct (iexec_ok 64 eq_refl _ _ _ _ Hx H1) as [E1 G1].
  assert (HLx : length x = 24%nat) by (rewrite (inL_length _ _ Hx); exact HI).
  assert (V1 : dot w24 (zexec pass1 x) = dot w24 x).
  { apply vexec_exact; [rewrite w24_len; lia|vm_compute; reflexivity]. }
  destruct (iexec_ok 64 eq_refl _ _ _ _ G1 H2) as [E2 G2].
  assert (HLy : length (zexec pass1 x) = 24%nat) by (now rewrite zexec_length).
  assert (Ez : z = zexec pass2 (zstep (zexec pass1 x) (Fold 12 foldc))).
  { unfold z. rewrite exec_app, E1, E2. apply zexec_cons. }
  rewrite zexec_cons in G2.
  rewrite <- Ez in G2.
  set (y := zexec pass1 x) in *. clearbody z. clear E1 E2 H1 H2.
  assert (V2 : dot w24 z = dot w24 y - nth 12 y 0 * ed_L).
  { rewrite Ez. rewrite vexec_exact; [|rewrite zstep_length, w24_len; lia|vm_compute; reflexivity].
    cbn [zstep]. destruct (vfold w24 12 (nth 12 y 0) foldc y ltac:(rewrite w24_len; lia) ltac:(vm_compute; reflexivity)) as (A & B & C).
    rewrite dot_upd by (rewrite ?w24_len, A, HLy; lia). rewrite B, C.
    replace (fold_right (fun jc a => nth (fst jc) w24 0 * snd jc + a) 0 foldc) with (2 ^ 252 - ed_L) by (vm_compute; reflexivity).
    replace (nth 12 w24 0) with (2 ^ 252) by reflexivity. ring. }
  destruct (dot_canon12 _ _ G1) as (low & Hlow & Elow).
  pose proof (dotI_ok w24 _ _ Hx) as DX. destruct (dotI w24 Is) as [l h]. unfold inI in DX. cbn [fst snd] in DX.
  apply andb_prop in HD. destruct HD as [HD1 HD2]. apply Z.leb_le in HD1. apply Z.ltb_lt in HD2.
  assert (V : 0 <= dot w24 z < ed_L /\ dot w24 z = dot w24 x mod ed_L).
  { assert (D1 : nth 12 y 0 = 0 \/ nth 12 y 0 = -1) by lia.
    assert (R : 0 <= dot w24 z < ed_L). { change ed_L with (2 ^ 252 + 27742317777372353535851937790883648493) in *. destruct D1 as [D1|D1]; rewrite D1 in *; lia. }
    split; [exact R|]. rewrite V2, V1 in *. apply (Z.mod_unique_pos _ _ (nth 12 y 0)); [exact R|ring]. }
  destruct V as [R V]. split; [|exact V].
  destruct (dot_canon11 _ _ G2) as (low2 & Hlow2 & Elow2).
  assert (N11 : 0 <= nth 11 z 0 <= 2 ^ 21).
  { unfold mid in *. change ed_L with (2 ^ 252 + 27742317777372353535851937790883648493) in *. clear - R Hlow2 Elow2. lia. }
  replace (canon11 (0, 2 ^ 21)) with (updI 11 (0, 2 ^ 21) (canon11 t11)) by reflexivity.
  assert (HLz : length z = 24%nat) by (rewrite (inL_length _ _ G2); reflexivity).
  replace z with (upd 11 (nth 11 z 0) z).
  - apply inL_upd; [exact G2|unfold inI; cbn [fst snd]; exact N11].
  - clear - HLz. do 24 (destruct z as [|? z]; [discriminate HLz|]). reflexivity.
Qed.
Lemma tail_out x : inL Is x ->
  le2z (out_bytes sc_out (exec 64 (pass1 ++ Fold 12 foldc :: pass2) x)) = dot w24 x mod ed_L.
Proof using All.
  intros Hx. destruct (tail_ok x Hx) as [A B]. cbv zeta in A, B.
  set (z := exec 64 _ x) in *. clearbody z.
  assert (M : 0 <= dot w24 x mod ed_L < ed_L) by (apply Z.mod_pos_bound; reflexivity). pose proof out_lt as O.
  rewrite <- B in *. rewrite <- (cat_ks24 z A) in *.
  apply (out_bytes_value ks24).
  - vm_compute. reflexivity.
  - unfold ks24. repeat constructor; lia.
  - now apply canon_limbs24.
  - change (8 * Z.of_nat (length sc_out)) with 256. lia.
  - lia.
Qed.
End Tail.

(** ** The heads *)
Definition some_l (o : option (list itv)) : list itv := match o with Some a => a | None => [] end.
Definition in_reduce : list itv := map (fun k => (0, 2 ^ k - 1)) (repeat 21 23 ++ [29]).
Definition head_reduce : list instr := firstn (length sc_reduce_code - 24) sc_reduce_code.
Definition mid_reduce : list itv := Eval vm_compute in some_l (iexec 64 head_reduce in_reduce).
Definition p1_reduce : list itv := Eval vm_compute in some_l (iexec 64 pass1 mid_reduce).
Definition p2_reduce : list itv := Eval vm_compute in some_l (iexec 64 (Fold 12 foldc :: pass2) p1_reduce).


Lemma reduce_code_ok x : inL in_reduce x ->
  le2z (out_bytes sc_out (exec 64 sc_reduce_code x)) = dot w24 x mod ed_L.
Proof.
  intros Hx. assert (HL : length x = 24%nat) by (rewrite (inL_length _ _ Hx); reflexivity).
  replace sc_reduce_code with (head_reduce ++ pass1 ++ Fold 12 foldc :: pass2) by (vm_compute; reflexivity).
  rewrite exec_app.
  assert (E : iexec 64 head_reduce in_reduce = Some mid_reduce) by (vm_compute; reflexivity).
  destruct (iexec_ok 64 eq_refl _ _ _ _ Hx E) as [-> G].
  rewrite (tail_out mid_reduce (nth 12 p1_reduce (0, 0)) (nth 11 p2_reduce (0, 0)));
    [|vm_compute; reflexivity|vm_compute; reflexivity|vm_compute; reflexivity|vm_compute; reflexivity|exact G].
  destruct (vexec_ok ed_L w24 head_reduce x ltac:(now rewrite HL)) as [q Eq]; [vm_compute; reflexivity|].
  replace (dot w24 (zexec head_reduce x)) with (dot w24 x + q * ed_L) by lia. apply Z.mod_add. discriminate.
Qed.

Theorem ScReduce_ok s : bytes_ok s -> length s = 64%nat ->
  length (ScReduce s) = 32%nat /\ bytes_ok (ScReduce s) /\ le2z (ScReduce s) = le2z s mod ed_L.
Proof.
  intros Hb HL. unfold ScReduce. split; [now rewrite out_bytes_length|]. split; [apply out_bytes_ok|].
  destruct (lds_val s Hb (repeat 21 23 ++ [29]) sc_reduce_loads 0 ltac:(lia) ltac:(vm_compute; reflexivity)) as (A & _ & B).
  rewrite reduce_code_ok by (exact (limb_inL _ _ A)). f_equal.
  rewrite <- (Z.mul_1_l (cat _ _)), cat_weights in B.
  replace (weights 1 (repeat 21 23 ++ [29])) with w24 in B by (vm_compute; reflexivity). rewrite B.
  rewrite Z.div_1_r. apply Z.mod_small. pose proof (le2z_bound s Hb) as D. rewrite HL in D.
  change (sum (repeat 21 23 ++ [29])) with 512. change (256 ^ Z.of_nat 64) with (2 ^ 512) in D. lia.
Qed.

Definition k12 : list Z := repeat 21 11 ++ [25].
Definition i12 : list itv := map (fun k => (0, 2 ^ k - 1)) k12.
Definition in_muladd : list itv := Eval vm_compute in some_l (ievs (i12 ++ i12 ++ i12) sc_muladd_prods).
Definition head_muladd : list instr := firstn (length sc_muladd_code - 24) sc_muladd_code.
Definition mid_muladd : list itv := Eval vm_compute in some_l (iexec 64 head_muladd in_muladd).
Definition p1_muladd : list itv := Eval vm_compute in some_l (iexec 64 pass1 mid_muladd).
Definition p2_muladd : list itv := Eval vm_compute in some_l (iexec 64 (Fold 12 foldc :: pass2) p1_muladd).

Lemma muladd_code_ok x : inL in_muladd x ->
  le2z (out_bytes sc_out (exec 64 sc_muladd_code x)) = dot w24 x mod ed_L.
Proof.
  intros Hx. assert (HL : length x = 24%nat) by (rewrite (inL_length _ _ Hx); reflexivity).
  replace sc_muladd_code with (head_muladd ++ pass1 ++ Fold 12 foldc :: pass2) by (vm_compute; reflexivity).
  rewrite exec_app.
  assert (E : iexec 64 head_muladd in_muladd = Some mid_muladd) by (vm_compute; reflexivity).
  destruct (iexec_ok 64 eq_refl _ _ _ _ Hx E) as [-> G].
  rewrite (tail_out mid_muladd (nth 12 p1_muladd (0, 0)) (nth 11 p2_muladd (0, 0)));
    [|vm_compute; reflexivity|vm_compute; reflexivity|vm_compute; reflexivity|vm_compute; reflexivity|exact G].
  destruct (vexec_ok ed_L w24 head_muladd x ltac:(now rewrite HL)) as [q Eq]; [vm_compute; reflexivity|].
  replace (dot w24 (zexec head_muladd x)) with (dot w24 x + q * ed_L) by lia. apply Z.mod_add. discriminate.
Qed.

Definition w12 : list Z := Eval vm_compute in weights 1 k12.
Lemma list12 (x : list Z) : length x = 12%nat -> exists a0 a1 a2 a3 a4 a5 a6 a7 a8 a9 a10 a11,
  x = [a0; a1; a2; a3; a4; a5; a6; a7; a8; a9; a10; a11].
Proof. intros H. do 12 (destruct x as [|? x]; [discriminate H|]). destruct x; [|discriminate H]. repeat eexists. Qed.
(** schoolbook multiplication in base W *)
Lemma prods_arith W a0 a1 a2 a3 a4 a5 a6 a7 a8 a9 a10 a11 b0 b1 b2 b3 b4 b5 b6 b7 b8 b9 b10 b11 c0 c1 c2 c3 c4 c5 c6 c7 c8 c9 c10 c11 :
  let ev n (l : list Z) := fold_right (fun v a => v + W * a) 0 (firstn n l) in
  let A := [a0; a1; a2; a3; a4; a5; a6; a7; a8; a9; a10; a11] in
  let B := [b0; b1; b2; b3; b4; b5; b6; b7; b8; b9; b10; b11] in
  let C := [c0; c1; c2; c3; c4; c5; c6; c7; c8; c9; c10; c11] in
  ev 24%nat (map (zev (A ++ B ++ C)) sc_muladd_prods) = ev 12%nat A * ev 12%nat B + ev 12%nat C.
Proof.
  intros ev A B C. unfold ev, A, B, C, sc_muladd_prods.
  cbn [app map zev nth firstn fold_right]. ring.
Qed.
Lemma dot_base W ws : forall x, ws = weights 1 (repeat 21 (length x)) -> W = 2 ^ 21 -> dot ws x = fold_right (fun v a => v + W * a) 0 x.
Proof.
  intros x -> ->. rewrite <- cat_weights, Z.mul_1_l. induction x as [|v x IH]; [reflexivity|]. cbn [length repeat cat fold_right]. now rewrite IH.
Qed.

Lemma prods_val A B C : length A = 12%nat -> length B = 12%nat -> length C = 12%nat ->
  dot w24 (map (zev (A ++ B ++ C)) sc_muladd_prods) = dot w12 A * dot w12 B + dot w12 C.
Proof.
  intros HA HB HC. assert (LP : length (map (zev (A ++ B ++ C)) sc_muladd_prods) = 24%nat) by (rewrite map_length; reflexivity).
  rewrite (dot_base (2 ^ 21) w24) by (rewrite ?LP; reflexivity).
  rewrite (dot_base (2 ^ 21) w12 A) by (rewrite ?HA; reflexivity).
  rewrite (dot_base (2 ^ 21) w12 B) by (rewrite ?HB; reflexivity).
  rewrite (dot_base (2 ^ 21) w12 C) by (rewrite ?HC; reflexivity).
  rewrite <- (firstn_all (map _ _)), LP. rewrite <- (firstn_all A) at 2. rewrite <- (firstn_all B) at 2. rewrite <- (firstn_all C) at 2. rewrite HA, HB, HC.
  destruct (list12 A HA) as (a0&a1&a2&a3&a4&a5&a6&a7&a8&a9&a10&a11&->).
  destruct (list12 B HB) as (b0&b1&b2&b3&b4&b5&b6&b7&b8&b9&b10&b11&->).
  destruct (list12 C HC) as (c0&c1&c2&c3&c4&c5&c6&c7&c8&c9&c10&c11&->).
  exact (prods_arith (2 ^ 21) a0 a1 a2 a3 a4 a5 a6 a7 a8 a9 a10 a11 b0 b1 b2 b3 b4 b5 b6 b7 b8 b9 b10 b11 c0 c1 c2 c3 c4 c5 c6 c7 c8 c9 c10 c11).
Qed.

Lemma loads12_ok a : bytes_ok a -> length a = 32%nat ->
  inL i12 (map (ld a) sc_loads12) /\ dot w12 (map (ld a) sc_loads12) = le2z a.
Proof.
  intros Hb HL. destruct (lds_val a Hb k12 sc_loads12 0 ltac:(lia) ltac:(vm_compute; reflexivity)) as (A & _ & B).
  split; [exact (limb_inL _ _ A)|]. rewrite <- (Z.mul_1_l (cat _ _)), cat_weights in B. change (weights 1 k12) with w12 in B.
  rewrite B, Z.div_1_r. apply Z.mod_small. pose proof (le2z_bound a Hb) as D. rewrite HL in D.
  change (sum k12) with 256. change (256 ^ Z.of_nat 32) with (2 ^ 256) in D. lia.
Qed.

Theorem ScMulAdd_ok a b c : bytes_ok a -> length a = 32%nat -> bytes_ok b -> length b = 32%nat -> bytes_ok c -> length c = 32%nat ->
  length (ScMulAdd a b c) = 32%nat /\ bytes_ok (ScMulAdd a b c) /\ le2z (ScMulAdd a b c) = (le2z a * le2z b + le2z c) mod ed_L.
Proof.
  intros A1 A2 B1 B2 C1 C2. unfold ScMulAdd. cbv zeta. split; [now rewrite out_bytes_length|]. split; [apply out_bytes_ok|].
  destruct (loads12_ok a A1 A2) as [IA VA]. destruct (loads12_ok b B1 B2) as [IB VB]. destruct (loads12_ok c C1 C2) as [IC VC].
  pose proof (inL_app _ _ _ _ IA (inL_app _ _ _ _ IB IC)) as IN.
  assert (E : ievs (i12 ++ i12 ++ i12) sc_muladd_prods = Some in_muladd) by (vm_compute; reflexivity).
  destruct (ievs_ok _ _ _ _ IN E) as [-> G]. rewrite muladd_code_ok by exact G. f_equal.
  rewrite prods_val by (rewrite map_length; reflexivity). now rewrite VA, VB, VC.
Qed.
Lemma x_reduce_same : x_reduce_code = sc_reduce_code /\ x_reduce_loads = sc_reduce_loads.
Proof. split; reflexivity. Qed.
