(** Two field elements mapped to points of E1 whose sum goes to the generator of G2. *)
From Coq Require Import ZArith List Bool Lia Ring Field.
From Verif Require Import Base SpecBls Fp BlsFp2 Weier Group SpecBlsSig SpecBlsMap ProofBlsE ProofBlsI ProofBlsJ ProofBlsK ProofBlsL ProofBlsN ProofBlsO ProofBlsQ BlsPrimes BlsEx.
Local Open Scope Z_scope.
Add Field KFS1 : Kp1.
Add Field KFS2 : Kp2.
Definition d_x0 : fp2 bls_p := q2 bls_p 0xa1ef9df62bcfbc3245565677fd2b988d0890bee38f30d5c4a2ec4367d24c826fa5c7761a76d5dc6ab44c775361f8445 0x8ad84dbe97ea60d811fca6917c5cc09448168cff9bf6c3ab2044a090bd1a0f3f781ff72ac7592b1c267d519f3ad2b1c.
Definition d_y0 : fp2 bls_p := q2 bls_p 0x6b5068fcaa951dfb8fce7d204455b1d3f981fa9e4e8b568f5c5f6ac42b8e5f14c2486e8e3bbeb5955a5430cc1c558df 0xc4bbc47b79661603f832e795a5d6677c8686305eb8d55403ae229297d0f933dcfdfc8a0c33a4a8ed9723ffa6a1804cf.
Definition d_x1 : fp2 bls_p := q2 bls_p 0x12e986807b8f1a1f8643822b03a21e15dcf3798e2e2314d894f0419c3cba8acecc907f3b0ae0f3b1ef3ec352f41d2ae3 0x9e0cc502c4d09c6e086d379b48696336c18949e7a30a56a9eb54cdb501aa2b50c5ac2142e43c6dc4a60cf27cb27a739.
Definition d_y1 : fp2 bls_p := q2 bls_p 0xcce894f024ad7493c64a36dc2802dd5c76d02aa2b89e638151ac75d6cb6c5a4cffc6e6cd80cc5203613c40d93f091da 0x15eda4a8a706cef78cea45295ea255952eac9ba0bd02bba07e3eb341be979dac457983aaa611f741ec1f3e5b3bc4f2cb.
Definition d_tx : fp2 bls_p := q2 bls_p 0x14a752cb7b2e05a78e9149734a1475f2ed57d73cbcbde9bcf9232d0fb6e7461c7b39924550c00d904b0b9854931c6a71 0x1311ce5214e724f92801f005daf77c3e6d4b1c791fe266ab558c9abbe19db3f19ccb53ca156a753df21e8eba10ef0809.
Definition d_ty : fp2 bls_p := q2 bls_p 0x16395da1d9f76861671d6433bcd7bcf4e929ff6e36bc46c1dccbb9077f0a4cb52daabb9f36704aa955dacf0459c10d6 0x10b6e8312b74f68723264a7de6148e27bcf78cf524ed04c06b2fc269ab61649b2fd533c411976fd27829c1bf65c2a86c.
Definition d_lam : fp2 bls_p := q2 bls_p 0x52693d8cf565a24cdf0bf847cbb27854cb8bbee061ab4678cff74c4402028cb413dff0100073d38f74f3f9a628c5300 0x1828ad63a4f83c55ee5707d4b86a81c0a0a515cbed716ccd70bb8971eddd49b63bcc9e359abfdf82696a3ccdc1680ffc.
Definition d_u0 : fp2 bls_p := q2 bls_p 5 1.
Definition d_u1 : fp2 bls_p := q2 bls_p 0x14b1144db8f0219e5442e2c029a9741c450e39d80cf2a93ce6364dcf8154acc17839ed7d39a1afa94e7aefb2931b4272 0x1313d108b2f9e9dc64a3c230c2258293944af0fc832b3780dbf05f1ee53360ff9c19a7946d800ede1758ee36f74edf6.
Definition d_i0 : fp2 bls_p := q2 bls_p 0x40b012b9dd9bb14aae7dd4a3f53959a5bc17a69fd90f600b9df75cbd7c1de6f1be7a8ec8ea96666b5a0d51897fe8778 0x11d04aab79494b93cf401565943b776728894099c8e82b8aba3ae5758a7b5d44277b643edbd1d95dc7287c1b8bbcf95f.
Definition d_i1 : fp2 bls_p := q2 bls_p 0x199e3ab21f318cbab3655906cd6fa910a18c11ab9d292903e5b1e0fed1a8b6ef371805653218142b7b90e8e9d0a50d9 0xe5e1dc0156ff278aec241100e0f8d54f73ae50ec932b5f964dd2f325b466e4bd8d935f9c26ab645f7d8284e89314993.
Lemma q2_div_is (a b c : fp2 bls_p) : b <> z2 -> a = q2_mul c b -> q2_div a b = c.
Proof. intros N ->. field. exact N. Qed.
Lemma d_on0 : q2_mul d_y0 d_y0 = e1_rhs d_x0. Proof. unfold e1_rhs, d_y0, d_x0, iso_A, iso_B. qdec. Qed.
Lemma d_on1 : q2_mul d_y1 d_y1 = e1_rhs d_x1. Proof. unfold e1_rhs, d_y1, d_x1, iso_A, iso_B. qdec. Qed.
Lemma d_onT : q2_mul d_ty d_ty = e1_rhs d_tx. Proof. unfold e1_rhs, d_ty, d_tx, iso_A, iso_B. qdec. Qed.
Lemma d_sswu u i x y : u <> z2 -> q2_mul i (swu_t u) = o2 -> x = q2_mul mi (q2_add o2 i) -> q2_mul y y = e1_rhs x -> sgn0 y = sgn0 u ->
  sswu u (Weier.Aff _ x y).
Proof.
  intros N I EX E S. assert (T : swu_t u <> z2) by (rewrite t_zero; exact N).
  assert (X : swu_x1 u = x).
  { unfold swu_x1. destruct (q2_dec (swu_t u) z2); [contradiction|]. rewrite EX, <- mi_eq. do 2 f_equal. apply q2_div_is; [exact T|]. symmetry. exact I. }
  exists x, y. refine (conj eq_refl (conj _ (conj E S))). left. rewrite X. split; [exists y; exact E|reflexivity].
Qed.
Lemma q2_ne a b : negb (a mod bls_p =? 0) = true -> q2 bls_p a b <> z2.
Proof.
  intros H E. apply (f_equal (fun x => fval (fst x))) in E. cbn [q2 fst] in E. rewrite !fval_of, Zmod_0_l in E. rewrite E in H. discriminate H.
Qed.
Lemma d_u0_ne : d_u0 <> z2. Proof. apply q2_ne. vm_cast_no_check (@eq_refl bool true). Qed.
Lemma d_u1_ne : d_u1 <> z2. Proof. apply q2_ne. vm_cast_no_check (@eq_refl bool true). Qed.
Lemma sgn_q a b c d : Z.odd (a mod bls_p) = Z.odd (c mod bls_p) -> negb (a mod bls_p =? 0) && negb (c mod bls_p =? 0) = true -> sgn0 (q2 bls_p a b) = sgn0 (q2 bls_p c d).
Proof.
  intros O N. apply andb_true_iff in N. destruct N as [N1 N2]. unfold sgn0. cbn [q2 fst snd]. rewrite !fval_of.
  apply negb_true_iff in N1, N2. rewrite N1, N2, O. reflexivity.
Qed.
Lemma d_sw0 : sswu d_u0 (Weier.Aff _ d_x0 d_y0).
Proof.
  apply (d_sswu d_u0 d_i0); [exact d_u0_ne| | |exact d_on0|].
  - unfold d_i0, swu_t, d_u0, iso_Z. cbv zeta. qdec.
  - unfold d_x0, mi, d_i0. qdec.
  - apply sgn_q; [vm_cast_no_check (@eq_refl bool (Z.odd (5 mod bls_p)))|vm_cast_no_check (@eq_refl bool true)].
Qed.
Lemma d_sw1 : sswu d_u1 (Weier.Aff _ d_x1 d_y1).
Proof.
  apply (d_sswu d_u1 d_i1); [exact d_u1_ne| | |exact d_on1|].
  - unfold d_i1, swu_t, d_u1, iso_Z. cbv zeta. qdec.
  - unfold d_x1, mi, d_i1. qdec.
  - apply sgn_q; [vm_cast_no_check (@eq_refl bool false)|vm_cast_no_check (@eq_refl bool true)].
Qed.
Lemma d_dx : q2_sub d_x1 d_x0 <> z2.
Proof. unfold d_x1, d_x0. qdec. Qed.
Lemma aff_ne (x0 y0 x1 y1 : fp2 bls_p) : x0 <> x1 -> Weier.Aff _ x0 y0 <> Weier.Aff _ x1 y1.
Proof. intros N E. injection E as E _. contradiction. Qed.
Lemma d_xne : d_x0 <> d_x1. Proof. intros E. apply d_dx. rewrite E. ring. Qed.
Lemma add_is x0 y0 x1 y1 l tx ty : q2_sub x1 x0 <> z2 -> q2_sub y1 y0 = q2_mul l (q2_sub x1 x0) ->
  q2_sub (q2_sub (q2_mul l l) x0) x1 = tx -> q2_sub (q2_mul l (q2_sub x0 tx)) y0 = ty ->
  e1_add (Weier.Aff _ x0 y0) (Weier.Aff _ x1 y1) = Weier.Aff _ tx ty.
Proof.
  intros N L X Y. unfold e1_add, Weier.padd. destruct (q2_dec x0 x1) as [E|_]; [exfalso; apply N; rewrite E; ring|]. cbv zeta.
  rewrite (q2_div_is _ _ l N L), X, Y. reflexivity.
Qed.
Lemma d_add_l : q2_sub d_y1 d_y0 = q2_mul d_lam (q2_sub d_x1 d_x0).
Proof. unfold d_y1, d_y0, d_lam, d_x1, d_x0. qdec. Qed.
Lemma d_add_x : q2_sub (q2_sub (q2_mul d_lam d_lam) d_x0) d_x1 = d_tx.
Proof. unfold d_lam, d_x0, d_x1, d_tx. qdec. Qed.
Lemma d_add_y : q2_sub (q2_mul d_lam (q2_sub d_x0 d_tx)) d_y0 = d_ty.
Proof. unfold d_lam, d_x0, d_tx, d_y0, d_ty. qdec. Qed.
Lemma d_add : e1_add (Weier.Aff _ d_x0 d_y0) (Weier.Aff _ d_x1 d_y1) = Weier.Aff _ d_tx d_ty.
Proof. exact (add_is _ _ _ _ d_lam _ _ d_dx d_add_l d_add_x d_add_y). Qed.
Lemma iso_is x y X Y : poly3 k20 k21 o2 z2 x <> z2 -> poly3 k40 k41 k42 o2 x <> z2 ->
  poly3 k10 k11 k12 k13 x = q2_mul X (poly3 k20 k21 o2 z2 x) ->
  q2_mul y (poly3 k30 k31 k32 k33 x) = q2_mul Y (poly3 k40 k41 k42 o2 x) -> iso_map (Weier.Aff _ x y) = Weier.Aff _ X Y.
Proof.
  intros N1 N2 E1 E2. unfold iso_map. rewrite (q2_div_is _ _ X N1 E1).
  replace (q2_mul y (q2_div (poly3 k30 k31 k32 k33 x) (poly3 k40 k41 k42 o2 x))) with Y; [reflexivity|].
  rewrite <- (q2_div_is _ _ Y N2 E2). field. exact N2.
Qed.
Lemma d_iso_x : poly3 k10 k11 k12 k13 d_tx = q2_mul (q2 bls_p g2x0 g2x1) (poly3 k20 k21 o2 z2 d_tx).
Proof. unfold poly3, k10, k11, k12, k13, k20, k21, d_tx. qdec. Qed.
Lemma d_iso_y : q2_mul d_ty (poly3 k30 k31 k32 k33 d_tx) = q2_mul (q2 bls_p g2y0 g2y1) (poly3 k40 k41 k42 o2 d_tx).
Proof. unfold poly3, k30, k31, k32, k33, k40, k41, k42, d_tx, d_ty. qdec. Qed.
Lemma dens_ne x y : q2_mul y y = e1_rhs x -> poly3 k20 k21 o2 z2 x <> z2 /\ poly3 k40 k41 k42 o2 x <> z2.
Proof.
  intros E. pose proof (e1_den _ _ E) as D. destruct (iso_dens x) as [-> ->].
  split; intros X; apply int2 in X; [tauto|]. destruct X as [X|X]; [apply int2 in X; tauto|contradiction].
Qed.
Lemma d_iso : iso_map (Weier.Aff _ d_tx d_ty) = g2_gen.
Proof. destruct (dens_ne _ _ d_onT) as [N1 N2]. exact (iso_is d_tx d_ty _ _ N1 N2 d_iso_x d_iso_y). Qed.
Lemma heff_r : (h_eff mod bls_r =? 0) = false. Proof. vm_cast_no_check (@eq_refl bool false). Qed.
Lemma pr_r : Znumtheory.prime bls_r. Proof. exact prime_blsr. Qed.
Lemma gen2_ne : g2_gen <> g2_inf. Proof. discriminate. Qed.
Local Opaque bls_r g2_gen.
Lemma order_gen2 k : g2_mul k g2_gen = g2_inf -> k mod bls_r = 0.
Proof. intros E. exact (zmul_order _ _ _ _ _ G2 bls_r k g2_gen (proj1 gen2_in) pr_r (proj2 gen2_in) gen2_ne E). Qed.
Lemma heff_gen : g2_mul h_eff g2_gen <> g2_inf.
Proof. intros E. apply order_gen2 in E. pose proof heff_r as X. apply Z.eqb_neq in X. exact (X E). Qed.
Lemma d_ne : Weier.Aff _ d_x0 d_y0 <> Weier.Aff _ d_x1 d_y1.
Proof. exact (aff_ne _ _ _ _ d_xne). Qed.
Lemma d_sum : g2_mul h_eff g2_gen = g2_mul h_eff (iso_map (e1_add (Weier.Aff _ d_x0 d_y0) (Weier.Aff _ d_x1 d_y1))).
Proof. exact (f_equal (g2_mul h_eff) (eq_sym (eq_trans (f_equal iso_map d_add) d_iso))). Qed.
