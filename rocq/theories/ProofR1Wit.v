(** A reference implementation of the curve interface, computed from the group
    law itself, and concrete points of P-256. *)
Require Import ZArith List Lia Znumtheory Bool Ring Field.
Require Import Verif.Base Verif.Fp Verif.Mont63 Verif.Weier Verif.Group Verif.EC Verif.Primes Verif.Curves
  Verif.SpecECDSA Verif.ModelK1 Verif.ProofK1 Verif.ModelECDSA Verif.ModelApi
  Verif.ProofECDSA Verif.ProofECDSA2 Verif.ProofECDSA3 Verif.ProofK1Api Verif.ProofK1Wit.
Import ListNotations.
Open Scope Z_scope.

Definition ref_curve (c : wcurve) : ecurve :=
  let enc P := (px c P, py c P) in {|
  e_P := w_p c; e_N := w_n c;
  e_Add := fun x1 y1 x2 y2 => enc (w_add c (dec2 c x1 y1) (dec2 c x2 y2));
  e_ScalarMult := fun x y k => enc (w_mul c (be2z k) (dec2 c x y));
  e_ScalarBaseMult := fun k => enc (w_mul c (be2z k) (w_G c)) |}.

Lemma ref_dec2 c P : w_b c mod w_p c <> 0 -> w_on c P -> dec2 c (px _ P) (py _ P) = P.
Proof.
  intros Hb HP. pose proof (inf_test _ Hb P HP) as I. unfold dec2.
  destruct ((px c P =? 0) && (py c P =? 0)).
  - symmetry. apply I. reflexivity.
  - apply paff_pxy. intros H. apply I in H. discriminate.
Qed.

Theorem ref_p256_implements : implements (ref_curve p256) p256.
Proof.
  assert (Hb : w_b p256 mod w_p p256 <> 0) by (vm_compute; discriminate).
  constructor.
  - exact p256_valid.
  - exact Hb.
  - split; reflexivity.
  - split; reflexivity.
  - split; reflexivity.
  - reflexivity.
  - reflexivity.
  - reflexivity.
  - intros P Q HP HQ. cbn [e_Add ref_curve]. rewrite !ref_dec2 by assumption. reflexivity.
  - intros P k HP Hk. cbn [e_ScalarMult ref_curve]. rewrite ref_dec2 by assumption. reflexivity.
  - intros k Hk. reflexivity.
Qed.

(** Addition with a given slope. *)
Section AddCert.
Variable c : wcurve.
Hypothesis Hf : w_field_ok c.
Let p := w_p c.
Lemma Kf9 : field_theory (fp_of p 0) (fp_of p 1) fp_add fp_mul fp_sub fp_opp fp_div fp_inv eq.
Proof. exact (fp_field _ (wv_prime c Hf)). Qed.
Add Field KF9 : Kf9.
Lemma w_add_cert x1 y1 x2 y2 l x3 y3 :
  (x2 - x1) mod p <> 0 -> (l * (x2 - x1)) mod p = (y2 - y1) mod p ->
  x3 mod p = (l * l - x1 - x2) mod p -> y3 mod p = (l * (x1 - x3) - y1) mod p ->
  w_add c (paff c x1 y1) (paff c x2 y2) = paff c x3 y3.
Proof.
  intros Hx Hl E3 F3.
  assert (EQ : forall a b, a mod p = b mod p -> fp_of p a = fp_of p b)
    by (intros a b H; rewrite <- (fp_of_mod p a), H, fp_of_mod; reflexivity).
  apply EQ in Hl, E3, F3. 
  repeat (rewrite ?fp_of_sub, ?fp_of_mul in Hl). repeat (rewrite ?fp_of_sub, ?fp_of_mul in E3).
  repeat (rewrite ?fp_of_sub, ?fp_of_mul in F3).
  assert (N : fp_sub (fp_of p x2) (fp_of p x1) <> fp_of p 0).
  { rewrite <- fp_of_sub. intros E. apply Hx. apply (f_equal fval) in E. rewrite !fval_of in E. exact E. }
  unfold w_add, paff. cbn [padd].
  destruct (fp_dec (fp_of (w_p c) x1) (fp_of (w_p c) x2)) as [E|_].
  { exfalso. apply N. fold p in E. rewrite E. ring. }
  fold p.
  assert (El : fp_div (fp_sub (fp_of p y2) (fp_of p y1)) (fp_sub (fp_of p x2) (fp_of p x1)) = fp_of p l).
  { rewrite <- Hl. field. exact N. }
  rewrite El. rewrite F3, E3. reflexivity.
Qed.
End AddCert.

(** Two points of P-256 whose sum has x = 0 and is not infinity. *)
Definition r1_wx := 114694588361369661939467548421055885138533821520680397324295277640664633236255.
Definition r1_wy := 35170701893042915197872540024243140851039694768376727273263944463943219092744.
Definition r1_sy := 46263761741508638697010950048709651021688891777877937875096931459006746039284.
Definition r1_wl := 21026786685488815579257643805040409951047543811062755403320158363294355107593.
Lemma r1_w_on : w_on p256 (paff p256 r1_wx r1_wy).
Proof. apply paff_on_iff. vm_compute. reflexivity. Qed.
Lemma r1_w_sum : w_add p256 (paff p256 r1_wx r1_wy) (w_G p256) = paff p256 0 r1_sy.
Proof.
  apply (w_add_cert p256 (wv_field _ p256_valid) _ _ _ _ r1_wl); vm_compute; try reflexivity. discriminate.
Qed.

(** Signing with key 1, nonce 1 and hash e on P-256. *)
Lemma r1_sign_example e : 0 <= e < 256 ->
  ecdsa_sign zero_blocks (ref_curve p256) (Some []) 1 key1 (hash_of e) =
    Some (Ok (z2be 32 (w_gx p256) ++ z2be 32 (w_gx p256 + e), 1)).
Proof.
  intros He. unfold ecdsa_sign, key1.
  change (length (repeat 0 31 ++ [1])) with 32%nat.
  change (length (hash_of e)) with 32%nat. cbn [Nat.eqb negb].
  rewrite be2z_31. change (e_N (ref_curve p256)) with r1_N. change (1 =? 0) with false.
  change (r1_N <=? 1) with false. cbv iota.
  rewrite hash_to_int_32 by (try split; reflexivity). unfold hash_of. rewrite be2z_31.
  cbn [sign_loop]. change (e_N (ref_curve p256)) with r1_N.
  change (rand_field_element r1_N (zero_blocks (big_bytes 1 ++ [] ++ repeat 0 31 ++ [e]) 0)) with 1.
  rewrite (base_mul (ref_curve p256) p256 ref_p256_implements) by (clear; lia).
  change (w_mul p256 1 (w_G p256)) with (w_G p256).
  change (px p256 (w_G p256)) with (w_gx p256). change (py p256 (w_G p256)) with (w_gy p256).
  set (gx := w_gx p256).
  change (gx mod r1_N) with gx. change (gx =? 0) with false. cbv iota.
  change (der_clean gx) with true. cbn [negb].
  change (w_gy p256 mod 2 =? 1) with true. cbv iota.
  assert (Ef : fermat_inverse 1 r1_N = 1).
  { unfold fermat_inverse. rewrite pow_mod_spec by (try reflexivity; discriminate). rewrite Z.pow_1_l by discriminate. reflexivity. }
  rewrite Ef.
  assert (Hg : gx + 256 < 2 ^ 255 /\ 2 ^ 247 < gx /\ gx + 256 < r1_N / 2 /\ r1_N / 2 < r1_N)
    by (repeat split; reflexivity).
  assert (Es : ((1 * gx + e) * 1) mod r1_N = gx + e).
  { rewrite Z.mul_1_l, Z.mul_1_r. apply Z.mod_small. clear - Hg He. assert (0 < 2 ^ 247) by reflexivity. lia. }
  rewrite Es.
  replace (gx + e =? 0) with false
    by (symmetry; apply Z.eqb_neq; clear - Hg He; assert (0 < 2 ^ 247) by reflexivity; lia).
  replace (r1_N / 2 <? gx + e) with false by (symmetry; apply Z.ltb_ge; clear - Hg He; lia).
  assert (Hc : der_clean (gx + e) = true).
  { apply der_clean_spec; clear - Hg He.
    - assert (0 < 2 ^ 247 /\ 2 ^ 255 < 2 ^ 256) by (split; reflexivity). lia.
    - lia. }
  rewrite Hc. cbn [negb].
  rewrite (pad32_big_bytes (gx + e)); [|clear - Hg He; assert (0 < 2 ^ 247 /\ 2 ^ 255 < 2 ^ 256) by (split; reflexivity); lia].
  reflexivity.
Qed.
