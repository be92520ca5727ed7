(** Concrete runs on secp256k1: witnesses that hypotheses can be met, and the
    counterexamples behind the refuted properties. *)
Require Import ZArith List Lia Znumtheory Bool.
Require Import Verif.Base Verif.Fp Verif.Mont63 Verif.Weier Verif.Group Verif.EC Verif.Primes Verif.Curves
  Verif.SpecECDSA Verif.ModelK1 Verif.ProofK1 Verif.ModelECDSA Verif.ModelApi
  Verif.ProofECDSA Verif.ProofECDSA2 Verif.ProofECDSA3 Verif.ProofK1Api.
Import ListNotations.
Open Scope Z_scope.

Lemma mod_inverse_cert a n i : prime n -> 0 <= i < n -> (a * i) mod n = 1 -> mod_inverse a n = Some i.
Proof.
  intros Hn Hi Ha. assert (H1 : 1 < n) by (destruct Hn; assumption).
  destruct (mod_inverse_prime a n Hn) as [x Hx].
  { intros E. rewrite <- Zmult_mod_idemp_l, E, Z.mul_0_l, Zmod_0_l in Ha. discriminate. }
  destruct (mod_inverse_some a n x H1 Hx) as [Bx Ex].
  rewrite Hx. f_equal. apply (mod_inv_unique a x i n); assumption.
Qed.

(** Signing with private key 1, nonce 1 and a small hash. *)
Definition zero_blocks : bytes -> nat -> bytes := fun _ _ => repeat 0 40.
Definition key1 : bytes := repeat 0 31 ++ [1].
Definition hash_of (e : Z) : bytes := repeat 0 31 ++ [e].

Lemma be2z_31 e : be2z (repeat 0 31 ++ [e]) = e.
Proof. rewrite be2z_snoc. change (be2z (repeat 0 31)) with 0. ring. Qed.

Lemma k1_sign_example e : 0 <= e < 256 ->
  ecdsa_sign zero_blocks k1_curve (Some []) 1 key1 (hash_of e) =
    Some (Ok (z2be 32 k1_Gx ++ z2be 32 (k1_Gx + e), 0)).
Proof.
  intros He. unfold ecdsa_sign, key1.
  change (length (repeat 0 31 ++ [1])) with 32%nat.
  change (length (hash_of e)) with 32%nat. cbn [Nat.eqb negb].
  rewrite be2z_31. change (e_N k1_curve) with k1_N. change (1 =? 0) with false.
  change (k1_N <=? 1) with false. cbv iota.
  rewrite hash_to_int_32 by (try split; reflexivity). unfold hash_of. rewrite be2z_31.
  cbn [sign_loop]. change (e_N k1_curve) with k1_N.
  change (rand_field_element k1_N (zero_blocks (big_bytes 1 ++ [] ++ repeat 0 31 ++ [e]) 0)) with 1.
  rewrite (base_mul k1_curve k1 k1_implements) by (clear; lia).
  change (w_mul k1 1 (w_G k1)) with (w_G k1).
  change (px k1 (w_G k1)) with k1_Gx. change (py k1 (w_G k1)) with k1_Gy.
  change (k1_Gx mod k1_N) with k1_Gx. change (k1_Gx =? 0) with false. cbv iota.
  change (der_clean k1_Gx) with true. cbn [negb].
  change (k1_Gy mod 2 =? 1) with false. cbv iota.
  assert (Ef : fermat_inverse 1 k1_N = 1).
  { unfold fermat_inverse. rewrite pow_mod_spec by (try reflexivity; discriminate). rewrite Z.pow_1_l by discriminate. reflexivity. }
  rewrite Ef.
  assert (Hg : k1_Gx + 256 < 2 ^ 255 /\ 2 ^ 247 < k1_Gx /\ k1_Gx + 256 < k1_N / 2 /\ k1_N / 2 < k1_N)
    by (repeat split; reflexivity).
  assert (Es : ((1 * k1_Gx + e) * 1) mod k1_N = k1_Gx + e).
  { rewrite Z.mul_1_l, Z.mul_1_r. apply Z.mod_small. clear - Hg He. assert (0 < 2 ^ 247) by reflexivity. lia. }
  rewrite Es.
  replace (k1_Gx + e =? 0) with false
    by (symmetry; apply Z.eqb_neq; clear - Hg He; assert (0 < 2 ^ 247) by reflexivity; lia).
  replace (k1_N / 2 <? k1_Gx + e) with false by (symmetry; apply Z.ltb_ge; clear - Hg He; lia).
  assert (Hc : der_clean (k1_Gx + e) = true).
  { apply der_clean_spec; clear - Hg He.
    - assert (0 < 2 ^ 247 /\ 2 ^ 255 < 2 ^ 256) by (split; reflexivity). lia.
    - lia. }
  rewrite Hc. cbn [negb].
  rewrite (pad32_big_bytes (k1_Gx + e)); [|clear - Hg He; assert (0 < 2 ^ 247 /\ 2 ^ 255 < 2 ^ 256) by (split; reflexivity); lia].
  reflexivity.
Qed.

(** A signature accepted for a key that is not on the curve. *)
Definition bad_pub : bytes := z2be 32 1 ++ z2be 32 2.

(** k1_add with the operand (0, P), the "negation" of infinity in recovery. *)
Definition wit_S := (41368939038460017089690463593392860417892426308765457203329747030588589193225,
                     35702972027818625020095973668955176075740885849864829235584237564223564379706).
Definition wit_Tx := 84277719676294955975531873589600757723440001141989808160313557072454191169562.
Definition wit_Ty := 44514091784718722966148495525058111474336925754223802736296268354082398930112.
Definition wit_b := 108911618539560749218028584375353609891766605186664107352356837379340639745456.
Definition wit_ri := 13499648161236477938760301359943791721062504425530739546045302818736391397630.
Definition wit_Qx := 50344320782776275218441704440484622440320983771226605620465339690098623553855.
Definition wit_Qy := 18869563388304494853875275611539470439526563429695453367337078943658441766575.

(** The curve through a given point, with another constant term. *)
Definition k1_twist (b x y : Z) : wcurve := {|
  w_p := w_p k1; w_a := 0; w_b := b; w_gx := x; w_gy := y; w_n := w_n k1 |}.

Lemma k1_twist_field b x y : (4 * 0 ^ 3 + 27 * b ^ 2) mod w_p k1 <> 0 -> w_field_ok (k1_twist b x y).
Proof. intros H. constructor; [exact prime_k1p|reflexivity|exact H]. Qed.

Lemma wit_mul_S : w_mul k1 k1_Gx (w_G k1) = paff k1 (fst wit_S) (snd wit_S).
Proof. apply (mul_check_ok ctx_k1p); [exact prime_k1p|]. vm_compute. reflexivity. Qed.

Lemma wit_mul_Q : w_mul (k1_twist wit_b wit_Tx wit_Ty) wit_ri (w_G (k1_twist wit_b wit_Tx wit_Ty)) =
  paff (k1_twist wit_b wit_Tx wit_Ty) wit_Qx wit_Qy.
Proof. apply (mul_check_ok ctx_k1p); [exact prime_k1p|]. vm_compute. reflexivity. Qed.

Lemma k1_mul_twist b x y k : (4 * 0 ^ 3 + 27 * b ^ 2) mod w_p k1 <> 0 ->
  (y * y) mod w_p k1 = (x * x * x + 0 * x + b) mod w_p k1 -> 0 <= k ->
  k1_scalar_mult x y (big_bytes k) =
    let S := w_mul (k1_twist b x y) k (w_G (k1_twist b x y)) in (px _ S, py _ S).
Proof.
  intros Hd Ho Hk.
  rewrite (k1_scalar_mult_spec (k1_twist b x y) k1_Hcp eq_refl (k1_twist_field b x y Hd));
    [|apply paff_on_iff; exact Ho|apply big_bytes_ok].
  rewrite be2z_big_bytes by exact Hk. reflexivity.
Qed.

Definition wit_J := (28,
  30900916523467678924667780313795426735899868276540848521938375462069415845265,
  33054211160396161244190057821902187017485132048109649632798089946731656285213).
Definition wit_zi := 86806685969358017987696847988721453826564807373005298431109532919652361701501.

Lemma wit_T : k1_add (fst wit_S) (snd wit_S) 0 k1_P = (wit_Tx, wit_Ty).
Proof.
  unfold k1_add.
  assert (J : k1_add_jac (fst wit_S) (snd wit_S) (z_for_affine (fst wit_S) (snd wit_S)) 0 k1_P (z_for_affine 0 k1_P) = wit_J)
    by (vm_compute; reflexivity).
  rewrite J. clear J. unfold k1_affine, wit_J.
  match goal with |- context [mod_inverse ?z k1_P] => rewrite (mod_inverse_cert z k1_P wit_zi) end.
  - vm_compute. reflexivity.
  - exact k1_P_prime.
  - rewrite <- k1_Hcp. split; [discriminate|reflexivity].
  - vm_compute. reflexivity.
Qed.

Local Opaque k1_decompress k1_scalar_mult k1_add.

(** Recovery fails for a signature of the zero hash. *)
Lemma wit_ri_ok : mod_inverse k1_Gx k1_N = Some wit_ri.
Proof.
  apply mod_inverse_cert; [exact prime_k1n|split; [discriminate|reflexivity]|vm_compute; reflexivity].
Qed.

Lemma wit_try2 : recover_try k1_curve k1_decompress 2 0 wit_ri (z2be 32 k1_Gx ++ z2be 32 k1_Gx ++ [0]) (repeat 0 32) = Ret None.
Proof.
  assert (GO : w_on k1 (w_G k1)) by apply (wv_Gon _ secp256k1_valid).
  unfold recover_try. rewrite firstn_app_len by apply z2be_length.
  change (2 :: z2be 32 k1_Gx) with (compressed_bytes k1 (w_G k1)).
  rewrite (k1_decompress_ok (w_G k1) GO ltac:(discriminate)).
  set (pb := point_bytes k1 (w_G k1)).
  change (skipn 1 (4 :: pb)) with pb. change (skipn 33 (4 :: pb)) with (skipn 32 pb). unfold pb.
  rewrite (point_bytes_x k1_curve k1 k1_implements), (point_bytes_y k1_curve k1 k1_implements).
  rewrite (point_mul_z k1_curve k1 k1_implements) by (try exact GO; discriminate).
  rewrite (im_base k1_curve k1 k1_implements) by (apply (z2be_ok 32 0)).
  change (w_mul k1 (be2z (repeat 0 32)) (w_G k1)) with (pinf k1).
  change (w_mul k1 (Z.abs 0) (w_G k1)) with (pinf k1).
  cbn [px py pinf]. change (e_Add k1_curve 0 0 0 (e_P k1_curve - 0)) with (k1_add 0 0 0 (k1_P - 0)).
  assert (E : k1_add 0 0 0 (k1_P - 0) = (0, 0)) by (vm_compute; reflexivity).
  rewrite E. change (e_ScalarMult k1_curve 0 0 (big_bytes wit_ri)) with (k1_scalar_mult 0 0 (big_bytes wit_ri)).
  rewrite k1_scalar_mult_00.
  change (skipn 32 (z2be 32 k1_Gx ++ z2be 32 k1_Gx ++ [0])) with (z2be 32 k1_Gx ++ [0]).
  rewrite firstn_app_len by apply z2be_length.
  change (be2z (z2be 32 k1_Gx)) with k1_Gx.
  assert (V : verify_ecdsa k1_curve 0 0 (repeat 0 32) k1_Gx k1_Gx = false).
  { destruct (verify_ecdsa _ _ _ _ _ _) eqn:V; [|reflexivity]. exfalso.
    apply (verify_ecdsa_spec k1_curve k1 k1_implements (pinf k1)) in V; [|exact I|reflexivity].
    destruct V as (_ & _ & w & _ & HI & _). apply HI.
    change (be2z (repeat 0 32)) with 0. rewrite Z.mul_0_l, Zmod_0_l.
    change (w_mul k1 0 (w_G k1)) with (pinf k1). unfold w_mul.
    rewrite (zmul_zero _ _ _ _ _ (w_group _ k1_Hf)). reflexivity. }
  rewrite V. reflexivity.
Qed.

Lemma wit_verify : verify_ecdsa k1_curve wit_Qx wit_Qy (repeat 0 32) k1_Gx k1_Gx = false.
Proof.
  unfold verify_ecdsa. change (e_N k1_curve) with k1_N.
  change ((k1_Gx <=? 0) || (k1_Gx <=? 0)) with false.
  change ((k1_N <=? k1_Gx) || (k1_N <=? k1_Gx)) with false. cbv iota.
  change (hash_to_int k1_N (repeat 0 32)) with 0.
  unfold verify_generic. change (e_N k1_curve) with k1_N. rewrite wit_ri_ok.
  assert (E1 : (k1_Gx * wit_ri) mod k1_N = 1) by (vm_compute; reflexivity).
  rewrite E1. rewrite Z.mul_0_l, Zmod_0_l.
  rewrite (base_mul k1_curve k1 k1_implements) by discriminate.
  change (w_mul k1 0 (w_G k1)) with (pinf k1). cbn [px py pinf].
  change (e_ScalarMult k1_curve) with k1_scalar_mult. change (e_Add k1_curve) with k1_add.
  rewrite (k1_mul_twist wit_b wit_Qx wit_Qy 1); [|vm_compute; discriminate|vm_compute; reflexivity|discriminate].
  cbv zeta. change (w_mul (k1_twist wit_b wit_Qx wit_Qy) 1 (w_G (k1_twist wit_b wit_Qx wit_Qy)))
    with (w_G (k1_twist wit_b wit_Qx wit_Qy)).
  change (px _ (w_G (k1_twist wit_b wit_Qx wit_Qy))) with wit_Qx.
  change (py _ (w_G (k1_twist wit_b wit_Qx wit_Qy))) with wit_Qy.
  vm_compute. reflexivity.
Qed.

Lemma wit_try3 : recover_try k1_curve k1_decompress 3 (k1_N - k1_Gx) wit_ri (z2be 32 k1_Gx ++ z2be 32 k1_Gx ++ [0]) (repeat 0 32) = Ret None.
Proof.
  assert (GO : w_on k1 (w_G k1)) by apply (wv_Gon _ secp256k1_valid).
  assert (NO : w_on k1 (w_neg k1 (w_G k1))) by (apply neg_on; [exact secp256k1_valid|exact GO]).
  unfold recover_try. rewrite firstn_app_len by apply z2be_length.
  change (3 :: z2be 32 k1_Gx) with (compressed_bytes k1 (w_neg k1 (w_G k1))).
  rewrite (k1_decompress_ok (w_neg k1 (w_G k1)) NO ltac:(discriminate)).
  set (pb := point_bytes k1 (w_neg k1 (w_G k1))).
  change (skipn 1 (4 :: pb)) with pb. change (skipn 33 (4 :: pb)) with (skipn 32 pb). unfold pb.
  rewrite (point_bytes_x k1_curve k1 k1_implements), (point_bytes_y k1_curve k1 k1_implements).
  change (Z.abs (k1_N - k1_Gx)) with (k1_N - k1_Gx).
  rewrite (point_mul_z k1_curve k1 k1_implements) by (try exact NO; discriminate).
  assert (ES : w_mul k1 (k1_N - k1_Gx) (w_neg k1 (w_G k1)) = paff k1 (fst wit_S) (snd wit_S)).
  { rewrite <- wit_mul_S.
    change (w_neg k1 (w_G k1)) with (w_neg k1 (w_mul k1 1 (w_G k1))).
    rewrite (mulG_neg k1 secp256k1_valid), (mulG_mul k1 secp256k1_valid).
    apply (mulG_eq k1 secp256k1_valid). vm_compute. reflexivity. }
  rewrite ES.
  rewrite (im_base k1_curve k1 k1_implements) by (apply (z2be_ok 32 0)).
  change (w_mul k1 (be2z (repeat 0 32)) (w_G k1)) with (pinf k1).
  change (px k1 (pinf k1)) with 0. change (py k1 (pinf k1)) with 0.
  change (px k1 (paff k1 (fst wit_S) (snd wit_S))) with (fst wit_S mod w_p k1).
  change (py k1 (paff k1 (fst wit_S) (snd wit_S))) with (snd wit_S mod w_p k1).
  rewrite !Z.mod_small by (split; [discriminate|reflexivity]).
  rewrite Z.sub_0_r. change (e_P k1_curve) with k1_P. change (e_Add k1_curve) with k1_add.
  rewrite wit_T. change (e_ScalarMult k1_curve) with k1_scalar_mult.
  rewrite (k1_mul_twist wit_b wit_Tx wit_Ty wit_ri); [|vm_compute; discriminate|vm_compute; reflexivity|discriminate].
  cbv zeta. rewrite wit_mul_Q.
  change (px _ (paff (k1_twist wit_b wit_Tx wit_Ty) wit_Qx wit_Qy)) with (wit_Qx mod w_p k1).
  change (py _ (paff (k1_twist wit_b wit_Tx wit_Ty) wit_Qx wit_Qy)) with (wit_Qy mod w_p k1).
  rewrite !Z.mod_small by (split; [discriminate|reflexivity]).
  change (skipn 32 (z2be 32 k1_Gx ++ z2be 32 k1_Gx ++ [0])) with (z2be 32 k1_Gx ++ [0]).
  rewrite firstn_app_len by apply z2be_length.
  change (be2z (z2be 32 k1_Gx)) with k1_Gx.
  rewrite wit_verify. reflexivity.
Qed.

Theorem k1_zero_hash_fails B :
  RecoverPubkey B ((z2be 32 k1_Gx ++ z2be 32 k1_Gx) ++ [0]) (repeat 0 32) ECC_CURVE_SECP256K1 = Ret (None, FAILURE).
Proof.
  change (RecoverPubkey B ((z2be 32 k1_Gx ++ z2be 32 k1_Gx) ++ [0]) (repeat 0 32) ECC_CURVE_SECP256K1) with
    (recover_ret (recover_public k1_curve k1_decompress ((z2be 32 k1_Gx ++ z2be 32 k1_Gx) ++ [0]) (repeat 0 32))).
  rewrite <- app_assoc. unfold recover_public.
  set (sig := z2be 32 k1_Gx ++ z2be 32 k1_Gx ++ [0]).
  change (length sig) with 65%nat. change (length (repeat 0 32)) with 32%nat. cbn [Nat.eqb negb orb].
  change (nth 64 sig 0) with 0. change (be2z (firstn 32 sig)) with k1_Gx.
  change (be2z (firstn 32 (skipn 32 sig))) with k1_Gx. change (e_N k1_curve) with k1_N.
  rewrite wit_ri_ok. change (0 =? 1) with false. change (0 =? 0) with true. cbv iota.
  unfold sig. rewrite wit_try2, wit_try3. reflexivity.
Qed.

(** A signature accepted for a public key that is not on the curve. *)
Theorem k1_off_curve_accepted B ID :
  Verify B bad_pub ID (repeat 0 32) (z2be 32 1 ++ z2be 32 1) ECC_CURVE_SECP256K1 = Ret SUCCESS.
Proof.
  rewrite k1_verify_eq.
  enough (V : ecdsa_verify k1_curve bad_pub (repeat 0 32) (z2be 32 1 ++ z2be 32 1) = true) by (rewrite V; reflexivity).
  unfold ecdsa_verify.
  change (length bad_pub =? 64)%nat with true. change (length (z2be 32 1 ++ z2be 32 1) =? 64)%nat with true.
  change (length (repeat 0 32) =? 32)%nat with true. cbn [negb].
  change (be2z (firstn 32 bad_pub)) with 1. change (be2z (skipn 32 bad_pub)) with 2.
  change (be2z (firstn 32 (z2be 32 1 ++ z2be 32 1))) with 1.
  change (be2z (skipn 32 (z2be 32 1 ++ z2be 32 1))) with 1.
  unfold verify_ecdsa. change (e_N k1_curve) with k1_N.
  change ((1 <=? 0) || (1 <=? 0)) with false.
  change ((k1_N <=? 1) || (k1_N <=? 1)) with false. cbv iota.
  change (hash_to_int k1_N (repeat 0 32)) with 0.
  unfold verify_generic. change (e_N k1_curve) with k1_N.
  change (mod_inverse 1 k1_N) with (Some 1). cbv iota.
  change ((0 * 1) mod k1_N) with 0. change ((1 * 1) mod k1_N) with 1.
  rewrite (base_mul k1_curve k1 k1_implements) by discriminate.
  change (w_mul k1 0 (w_G k1)) with (pinf k1). cbn [px py pinf].
  change (e_ScalarMult k1_curve) with k1_scalar_mult. change (e_Add k1_curve) with k1_add.
  rewrite (k1_mul_twist 3 1 2 1); [|vm_compute; discriminate|vm_compute; reflexivity|discriminate].
  cbv zeta. change (w_mul (k1_twist 3 1 2) 1 (w_G (k1_twist 3 1 2))) with (w_G (k1_twist 3 1 2)).
  change (px _ (w_G (k1_twist 3 1 2))) with 1. change (py _ (w_G (k1_twist 3 1 2))) with 2.
  vm_compute. reflexivity.
Qed.

Theorem bad_pub_off_curve : ~ w_on k1 (point_of_bytes k1 bad_pub).
Proof. intros H. apply paff_on_iff in H. vm_compute in H. discriminate. Qed.
