(** The second coordinate of the Montgomery curve: w^2 = u^3 + 486662 u^2 + u. *)
Require Import ZArith List Lia Bool Znumtheory Field.
Require Import Verif.Base Verif.Words Verif.Fp Verif.Group Verif.Edw Verif.SpecEd Verif.SpecCsha Verif.EdCurve Verif.ModelSlp Verif.ModelEd Verif.ProofSlp Verif.ProofEdF Verif.ProofEdG Verif.ProofEdX.
Require Import Verif.ModelCshaCode Verif.ModelCsha Verif.ProofCshaF Verif.ProofCshaG.
Import ListNotations.
Open Scope Z_scope.

Lemma Kf25w : field_theory (fz 0) (fz 1) fp_add fp_mul fp_sub fp_opp fp_div fp_inv (@eq F25).
Proof. exact Kf25. Qed.
Add Field KF25w : Kf25w.

Notation mw := mont_w.
Definition cA : F25 := fz 486662.
Definition e6 : F25 := fz 121666.
Notation two := (fz 1 + fz 1)%F.
Lemma cA_val : cA = (two * two * e6 - two)%F.
Proof. unfold cA, e6. rewrite <- fp_of_add, <- !fp_of_mul, <- fp_of_sub. reflexivity. Qed.
Lemma c_sq : (fz csz * fz csz = - (two * two * e6))%F.
Proof. unfold e6. rewrite <- fp_of_add, <- !fp_of_mul, <- fp_of_opp. apply fp_of_eq. vm_compute. reflexivity. Qed.
Lemma e6_ne : e6 <> fz 0. Proof. apply fz_ne. vm_compute. discriminate. Qed.
Lemma d_e : (ed_d * e6 = fz 1 - e6)%F.
Proof. pose proof d_num as D. fold e6 in D. transitivity (e6 * ed_d)%F; [ring|]. rewrite D. unfold e6. rewrite n121666. ring. Qed.
Global Opaque cA e6 ed_d.

Lemma on_g x y : ed_on (x, y) -> (x * x * (fz 1 + ed_d * (y * y)) = y * y - fz 1)%F.
Proof. intros H. pose proof (on_eq _ _ H) as E. transitivity (x * x + ed_d * (x * x) * (y * y))%F; [ring|]. rewrite E. ring. Qed.
Lemma dl_ne (y : F25) : y <> fz 1 -> (fz 1 - y)%F <> fz 0.
Proof. intros H E. apply H. symmetry. now apply sub0. Qed.
Lemma mw_sq x y : ed_on (x, y) -> x <> fz 0 -> y <> fz 1 ->
  let u := mont_u y in (mw (x, y) * mw (x, y) = (u * u + u * cA + fz 1) * u)%F.
Proof.
  intros H Nx Ny. cbv zeta. pose proof (dl_ne y Ny) as Nd. unfold mont_w. cbn [fst snd].
  assert (K : (x * x * (e6 - (e6 - fz 1) * (y * y)) = e6 * (y * y - fz 1))%F).
  { rewrite <- (on_g x y H). transitivity (x * x * (e6 + (ed_d * e6) * (y * y)))%F; [rewrite d_e; ring|]. ring. }
  set (u := mont_u y).
  transitivity (fz csz * fz csz * (u * u) / (x * x))%F; [field; exact Nx|]. rewrite c_sq.
  assert (K2 : (- (two * two * e6) * u = x * x * (u * u + u * cA + fz 1))%F).
  { rewrite cA_val. unfold u, mont_u.
    transitivity (two * two * (e6 * (y * y - fz 1)) / ((fz 1 - y) * (fz 1 - y)))%F; [field; exact Nd|]. rewrite <- K. field. exact Nd. }
  transitivity (- (two * two * e6) * u * u / (x * x))%F; [field; exact Nx|]. rewrite K2. field. exact Nx.
Qed.
(** the polynomial identity behind the chord formula *)
Lemma chord_key x1 y1 x2 y2 : ed_on (x1, y1) -> ed_on (x2, y2) ->
  let N := (y1 * y2)%F in let M := (x1 * x2)%F in let E := (ed_d * M * N)%F in
  let KD := ((fz 1 - y1 * y1) * (fz 1 - y2 * y2))%F in let g := ((fz 1 + ed_d * (y1 * y1)) * (fz 1 + ed_d * (y2 * y2)))%F in
  (two * ((y1 - y2) * (y1 - y2)) * (fz 1 - E + (N + M)) =
   (fz 1 - E - (N + M)) * (two * (fz 1 - N * N) + cA * KD + (cA + two) * (M * g)))%F /\ (M * M * g = KD)%F.
Proof.
  intros H1 H2. pose proof (on_g _ _ H1) as G1. pose proof (on_g _ _ H2) as G2. cbv zeta.
  set (g1 := (fz 1 + ed_d * (y1 * y1))%F) in *. set (g2 := (fz 1 + ed_d * (y2 * y2))%F) in *.
  assert (MM : (x1 * x2 * (x1 * x2) * (g1 * g2) = (fz 1 - y1 * y1) * (fz 1 - y2 * y2))%F).
  { transitivity ((x1 * x1 * g1) * (x2 * x2 * g2))%F; [ring|]. rewrite G1, G2. ring. }
  split; [|exact MM].
  set (M := (x1 * x2)%F) in *. set (N := (y1 * y2)%F). set (KD := ((fz 1 - y1 * y1) * (fz 1 - y2 * y2))%F) in *.
  set (X := (y1 - y2)%F).
  (* the even part *)
  assert (EV : ((fz 1 - N) * (two * (fz 1 - N * N) + cA * KD) - (cA + two) * (fz 1 + ed_d * N) * KD = two * (X * X) * (fz 1 + N))%F).
  { rewrite cA_val. transitivity ((fz 1 - N) * (two * (fz 1 - N * N)) + KD * (- two - (two * two * e6 - two) * N - two * two * (ed_d * e6) * N))%F; [ring|].
    rewrite d_e. unfold KD, N, X. ring. }
  (* the odd part *)
  assert (GG : (two * two * e6 * (g1 * g2) = two * two * e6 + two * two * (fz 1 - e6) * (y1 * y1 + y2 * y2) + two * two * (ed_d - (fz 1 - e6)) * (N * N))%F).
  { unfold g1, g2. transitivity (two * two * e6 + two * two * (ed_d * e6) * (y1 * y1 + y2 * y2) + two * two * (ed_d * (ed_d * e6)) * (N * N))%F; [unfold N; ring|].
    rewrite d_e. transitivity (two * two * e6 + two * two * (fz 1 - e6) * (y1 * y1 + y2 * y2) + two * two * (ed_d - ed_d * e6) * (N * N))%F; [ring|]. rewrite d_e. ring. }
  assert (OD : ((fz 1 - N) * (cA + two) * (g1 * g2) - (fz 1 + ed_d * N) * (two * (fz 1 - N * N) + cA * KD) = two * (X * X) * (fz 1 - ed_d * N))%F).
  { transitivity ((fz 1 - N) * (two * two * e6 * (g1 * g2)) - (fz 1 + ed_d * N) * (two * (fz 1 - N * N) + cA * KD))%F; [rewrite cA_val; ring|].
    rewrite GG, cA_val.
    transitivity ((fz 1 - N) * (two * two * e6 + two * two * (fz 1 - e6) * (y1 * y1 + y2 * y2) + two * two * (ed_d - (fz 1 - e6)) * (N * N))
       - (fz 1 + ed_d * N) * (two * (fz 1 - N * N)) - (two * two * e6 - two + (two * two * (ed_d * e6) - two * ed_d) * N) * KD)%F; [ring|].
    rewrite d_e. unfold KD, N, X. ring. }
  transitivity (two * (X * X) * (fz 1 + N) + M * (two * (X * X) * (fz 1 - ed_d * N)))%F; [ring|].
  rewrite <- EV, <- OD.
  transitivity ((fz 1 - N) * (two * (fz 1 - N * N) + cA * KD) - (cA + two) * (fz 1 + ed_d * N) * (M * M * (g1 * g2))
    + M * ((fz 1 - N) * (cA + two) * (g1 * g2) - (fz 1 + ed_d * N) * (two * (fz 1 - N * N) + cA * KD)))%F; [rewrite MM; ring|]. ring.
Qed.
Lemma sum_ne1 P Q : ed_on P -> ed_on Q -> snd P <> snd Q -> snd (ed_add P Q) <> fz 1.
Proof.
  intros HP HQ N E. apply N. pose proof (y_one_neutral _ (ed_add_on _ _ HP HQ) E) as Z.
  rewrite (gneg_unique _ _ _ _ _ ed_group P Q HP HQ Z). destruct P; reflexivity.
Qed.
Lemma mw_add x1 y1 x2 y2 : ed_on (x1, y1) -> ed_on (x2, y2) -> x1 <> fz 0 -> x2 <> fz 0 -> y1 <> fz 1 -> y2 <> fz 1 -> y1 <> y2 ->
  let u1 := mont_u y1 in let u2 := mont_u y2 in let u3 := mont_u (snd (ed_add (x1, y1) (x2, y2))) in
  ((u3 + cA + u1 + u2) * ((u1 - u2) * (u1 - u2)) = (mw (x1, y1) - mw (x2, y2)) * (mw (x1, y1) - mw (x2, y2)))%F.
Proof.
  intros H1 H2 X1 X2 Y1 Y2 NY. cbv zeta. pose proof (dl_ne y1 Y1) as D1. pose proof (dl_ne y2 Y2) as D2.
  pose proof (sum_ne1 _ _ H1 H2 NY) as N3. apply dl_ne in N3. rewrite ed_add_y in *.
  destruct (ed_complete _ _ _ _ H1 H2) as [_ C]. cbv zeta in C.
  destruct (chord_key _ _ _ _ H1 H2) as [K KM]. cbv zeta in K, KM.
  pose proof (mw_sq _ _ H1 X1 Y1) as W1. pose proof (mw_sq _ _ H2 X2 Y2) as W2. cbv zeta in W1, W2.
  assert (NM : (x1 * x2)%F <> fz 0) by now apply fp25_mul_ne.
  assert (W12 : (mw (x1, y1) * mw (x2, y2) = - (cA + two) * (mont_u y1 * mont_u y2) / (x1 * x2))%F).
  { unfold mont_w. cbn [fst snd]. transitivity (fz csz * fz csz * (mont_u y1 * mont_u y2) / (x1 * x2))%F; [field; auto|]. rewrite c_sq, cA_val. field. auto. }
  transitivity (mw (x1, y1) * mw (x1, y1) + mw (x2, y2) * mw (x2, y2) - two * (mw (x1, y1) * mw (x2, y2)))%F; [|ring].
  rewrite W1, W2, W12. clear W1 W2 W12.
  set (M := (x1 * x2)%F) in *. set (N := (y1 * y2)%F) in *. set (E := (ed_d * M * N)%F) in *.
  set (KD := ((fz 1 - y1 * y1) * (fz 1 - y2 * y2))%F) in *. set (g := ((fz 1 + ed_d * (y1 * y1)) * (fz 1 + ed_d * (y2 * y2)))%F) in *.
  assert (NT : (fz 1 - E - (N + M))%F <> fz 0).
  { intros Z. apply N3. transitivity ((fz 1 - E - (N + M)) / (fz 1 - E))%F; [field; exact C|]. rewrite Z. field. exact C. }
  assert (U3 : (two * ((y1 - y2) * (y1 - y2)) * mont_u ((N + M) / (fz 1 - E)) = two * (fz 1 - N * N) + cA * KD + (cA + two) * (KD / M))%F).
  { rewrite <- KM. transitivity (two * ((y1 - y2) * (y1 - y2)) * (fz 1 - E + (N + M)) / (fz 1 - E - (N + M)))%F.
    - unfold mont_u. field. split; [exact NT|exact C].
    - rewrite K, <- KM. field. split; [exact NM|exact NT]. }
  set (u3 := mont_u ((N + M) / (fz 1 - E))%F) in *. clearbody u3. clear K KM C NT N3 E g.
  unfold mont_u.
  transitivity (two * (two * ((y1 - y2) * (y1 - y2)) * u3) / ((fz 1 - y1) * (fz 1 - y1) * ((fz 1 - y2) * (fz 1 - y2)))
    + (cA + (y1 + fz 1) / (fz 1 - y1) + (y2 + fz 1) / (fz 1 - y2)) * (((y1 + fz 1) / (fz 1 - y1) - (y2 + fz 1) / (fz 1 - y2)) * ((y1 + fz 1) / (fz 1 - y1) - (y2 + fz 1) / (fz 1 - y2))))%F.
  { field. auto. }
  rewrite U3. unfold KD, N. field. auto.
Qed.
Lemma mw_neg P : mw (ed_neg P) = (- mw P)%F.
Proof.
  destruct P as [x y]. unfold mont_w. cbn [fst snd]. change (ed_neg (x, y)) with (fp_opp x, y). cbn [fst snd].
  destruct (fp_dec x (fz 0)) as [->|N].
  - replace (- fz 0)%F with (fz 0) by ring. unfold fp_div. rewrite fp_inv_0. ring.
  - assert ((- x)%F <> fz 0) by (intros E; apply N; transitivity (- - x)%F; [ring|rewrite E; ring]). field. auto.
Qed.
