(** The exponent of the group of the points of y^2 = x^3 + 4(1+i) over F_p(i), by
    counting: points of each prime order generate a subgroup with more than a
    third of all the elements the curve can have.  Generated by tools/mkblstors.py. *)
From Coq Require Import ZArith List Bool Lia Znumtheory Ring Field.
From Verif Require Import Base ModelBlsF SpecBls ProofBlsE SpecBlsG BlsPrime ProofBlsH Fp BlsFp2 BlsFrob ProofBlsI Weier Group SpecBlsSig ProofBlsJ ProofBlsK BlsPrimes BlsPrimes2 BlsCard Mont63 BlsG2Gen ProofBlsL.
Import ListNotations.
Local Open Scope Z_scope.
Add Field KFT1 : Kp1.
Add Field KFT2 : Kp2.

Definition lz (x : Z * Z) : L2 := l2 (fst x) (snd x).
Definition pt (x y : Z * Z) : g2pt := Weier.Aff _ (q2 bls_p (fst x) (snd x)) (q2 bls_p (fst y) (snd y)).
Definition oP : Z := 402096035359507321594726366720466575392706800671181159425656785868777272553337714697862511267018014931937703598282857976535744623203249.
Section Tors.
Variables (x y : Z * Z) (n : Z).
Lemma tors : (2 <? n) = true -> t_on ctx_blsp (lz x) (lz y) (l2 4 4) = true -> t_check ctx_blsp (lz x) (lz y) (l2 1 0) n = true ->
  g2_on (pt x y) /\ g2_mul n (pt x y) = g2_inf.
Proof using.
  intros Hn Hon Hc. apply Z.ltb_lt in Hn. unfold lz in *.
  pose proof (t_check_ok ctx_blsp (l2 (fst x) (snd x)) (l2 (fst y) (snd y)) (l2 1 0) ctx_blsp_ok) as C.
  pose proof (t_on_ok ctx_blsp ctx_blsp_ok) as O.
  pose proof (l2_rel (fst x) (snd x)) as RX. pose proof (l2_rel (fst y) (snd y)) as RY. pose proof (l2_rel 1 0) as R1. pose proof (l2_rel 4 4) as R4.
  revert C O RX RY R1 R4. unfold pt, g2_on, g2_mul, g2_add, g2_neg, g2_inf, g2pt.
  pose proof G2 as G. unfold g2_on, g2_add, g2_neg, g2_inf, g2pt in G. pose proof char2_2 as H2. pose proof bls_p_prime as HP. pose proof p34 as H34. revert G H2 HP H34.
  rewrite <- ctx_p. intros G H2 HP H34 C O RX RY R1 R4.
  pose proof (O HP H34 _ _ _ _ _ _ RX RY R4 Hon) as ON. split; [exact ON|].
  exact (C HP H34 H2 _ _ _ RX RY R1 G ON n Hn Hc).
Qed.
Lemma tors_ne a b : g2_on (pt x y) -> (0 <? n) = true -> t_ne ctx_blsp (lz x) (lz y) (l2 1 0) (lz a) n = true ->
  pt a b <> g2_mul n (pt x y).
Proof using.
  intros ON Hn Hc. apply Z.ltb_lt in Hn. unfold lz in *.
  pose proof (t_ne_ok ctx_blsp (l2 (fst x) (snd x)) (l2 (fst y) (snd y)) (l2 1 0) ctx_blsp_ok) as C.
  pose proof (l2_rel (fst x) (snd x)) as RX. pose proof (l2_rel (fst y) (snd y)) as RY. pose proof (l2_rel 1 0) as R1.
  pose proof (l2_rel (fst a) (snd a)) as RA.
  revert ON C RX RY R1 RA. unfold pt, g2_on, g2_mul, g2_add, g2_neg, g2_inf, g2pt.
  pose proof G2 as G. unfold g2_on, g2_add, g2_neg, g2_inf, g2pt in G. pose proof char2_2 as H2. pose proof bls_p_prime as HP. pose proof p34 as H34. revert G H2 HP H34.
  rewrite <- ctx_p. intros G H2 HP H34 ON C RX RY R1 RA.
  exact (C HP H34 H2 _ _ _ RX RY R1 G ON n _ _ _ Hn RA Hc).
Qed.
End Tors.
Lemma oP_prime : prime oP. Proof. exact prime_cp. Qed.

Definition tx13 : Z * Z := (0xadf181d822ba0f0912dfb1b62c1eaacdd4b14d62bc7e8fcdb5b0b5da2ac77f281db59553f3068f957c0374531edc1e4, 0x39bfcf7739ddda85050abad47896d69f0edb0b26e55bfd7d1be52cdd9633114806491ce571e31a94fb5138b0e89e5d3).
Definition ty13 : Z * Z := (0x148f0ac1d3c279e1bb796424dc39c30d80c02fdf6619db22fba3853425d79d78df31a6934217e426e060e8b55200d8ac, 0x11f914268fe8b4e16a42f35aa277901c522cb35370215d01a20da3e5785840d0c9b531de1bc06b053c2b456731405324).
Definition T13 : g2pt := pt tx13 ty13.
Lemma T13_on : t_on ctx_blsp (lz tx13) (lz ty13) (l2 4 4) = true. Proof. vm_cast_no_check (@eq_refl bool true). Qed.
Lemma T13_chk : t_check ctx_blsp (lz tx13) (lz ty13) (l2 1 0) 13 = true. Proof. vm_cast_no_check (@eq_refl bool true). Qed.
Lemma T13_ord : g2_on T13 /\ g2_mul 13 T13 = g2_inf.
Proof. exact (tors tx13 ty13 13 eq_refl T13_on T13_chk). Qed.

Definition tx13b : Z * Z := (0xcb0e212c0086b3c9291148d76e22c0ec857d9f256c9bbb87d9034e5b2266319ca20324ab0d0390e637e7c57bffa3f37, 0x177ade2e475e137b2b237f727a95fb4a27ce084c5a5dc5df3398c972a630f727c84a521e3bb19becb4fbe7c6a77c79c9).
Definition ty13b : Z * Z := (0x6ac672a8c14aa551ed7ea962602ca310c9c93679230c651c7972417990939906157057d5ffeb7ea38e3f6098c19a58b, 0x105777c4370e7cc452109c0086336ebf1df5c93912efb800aebe8884df10170591f8dc530f6e98b700d81edc55521f2c).
Definition T13b : g2pt := pt tx13b ty13b.
Lemma T13b_on : t_on ctx_blsp (lz tx13b) (lz ty13b) (l2 4 4) = true. Proof. vm_cast_no_check (@eq_refl bool true). Qed.
Lemma T13b_chk : t_check ctx_blsp (lz tx13b) (lz ty13b) (l2 1 0) 13 = true. Proof. vm_cast_no_check (@eq_refl bool true). Qed.
Lemma T13b_ord : g2_on T13b /\ g2_mul 13 T13b = g2_inf.
Proof. exact (tors tx13b ty13b 13 eq_refl T13b_on T13b_chk). Qed.

Definition tx23 : Z * Z := (0xf8c8576749f6ef99687722be49c46ef60c4cad47bdd52f46911d6999fb40b3ed4954b2bc02f40e4bf94b36270b33dc3, 0x13aa0b4879311ad3f08faf86172bc2c8d745556e5850d92e75ad5ec3209ed783fa5d62ab4ff707126e148ba293b705a6).
Definition ty23 : Z * Z := (0x1659ef01cf525dbaa8dd67cb2b44d3a75194f55c7b2e79a0f9d49c47d7b3d65dd75004ebff029f058978c51b00fab4af, 0xe5e5a5778ad0c48b8121d24675c6dc6fc4c7a7b1b230d00a3a034d1adf1401828c4f7b7d26851fe2361c0fabdf17948).
Definition T23 : g2pt := pt tx23 ty23.
Lemma T23_on : t_on ctx_blsp (lz tx23) (lz ty23) (l2 4 4) = true. Proof. vm_cast_no_check (@eq_refl bool true). Qed.
Lemma T23_chk : t_check ctx_blsp (lz tx23) (lz ty23) (l2 1 0) 23 = true. Proof. vm_cast_no_check (@eq_refl bool true). Qed.
Lemma T23_ord : g2_on T23 /\ g2_mul 23 T23 = g2_inf.
Proof. exact (tors tx23 ty23 23 eq_refl T23_on T23_chk). Qed.

Definition tx23b : Z * Z := (0x7cbb5fe9aea673421f0f285fadb24aa1d0edd18bb1cd7c70a2e64203af728ab9f01555dad49d18ce47c34f89cfeb193, 0x5c30779978d77378ffeb8598567cbe93e5113184df28ba9d8bf04197ae3a8e40ebac455285e1ce36e1aa0295e88cd6c).
Definition ty23b : Z * Z := (0x3fc71d99de2b4be3ae77ffdcec21d0fd2b1b7a2ca2be47b9b98b2ecce28bb47540b72263fc1c897d40b24d37639361c, 0x130c0a41ed376ba42b0ea1c74db06c3e594a05edf451f8875012e88d6cac3da136f74fff52b737be3d711db03bbc154).
Definition T23b : g2pt := pt tx23b ty23b.
Lemma T23b_on : t_on ctx_blsp (lz tx23b) (lz ty23b) (l2 4 4) = true. Proof. vm_cast_no_check (@eq_refl bool true). Qed.
Lemma T23b_chk : t_check ctx_blsp (lz tx23b) (lz ty23b) (l2 1 0) 23 = true. Proof. vm_cast_no_check (@eq_refl bool true). Qed.
Lemma T23b_ord : g2_on T23b /\ g2_mul 23 T23b = g2_inf.
Proof. exact (tors tx23b ty23b 23 eq_refl T23b_on T23b_chk). Qed.

Definition tx2713 : Z * Z := (0x13535ccfa29937d3dc08128f15027c4c776358ad3575fadf3fab92caee47bb90f4c3082ce70c530f1d2c5edef0efa391, 0xbde8606bd6dc5f0c2432e522dcd115b5760592b7365a2704158b507a3e203e663af4e8b5aeb923d7c14525d274308a7).
Definition ty2713 : Z * Z := (0x175475e09db0e40edc0a328d2e586cfc1803538e9171593cfb4df83f7f16ac76219fe689b03b6a1bba2a66fdeda286c2, 0xeb3fefa267356e06a9164e8d88d14f1d796f38f2eb97d752a25ded139216e6456ba0bd5534d4d3be1dfc0942caa7196).
Definition T2713 : g2pt := pt tx2713 ty2713.
Lemma T2713_on : t_on ctx_blsp (lz tx2713) (lz ty2713) (l2 4 4) = true. Proof. vm_cast_no_check (@eq_refl bool true). Qed.
Lemma T2713_chk : t_check ctx_blsp (lz tx2713) (lz ty2713) (l2 1 0) 2713 = true. Proof. vm_cast_no_check (@eq_refl bool true). Qed.
Lemma T2713_ord : g2_on T2713 /\ g2_mul 2713 T2713 = g2_inf.
Proof. exact (tors tx2713 ty2713 2713 eq_refl T2713_on T2713_chk). Qed.

Definition tx11953 : Z * Z := (0x1224befc3f5888ab99e60479e24810d5b5417c68644dd7807e3108b5b8c38ddf7a57f31757fe91a30c8c8e582cf84fdd, 0x8a6a0c2c205c3df342394884b39f12f4f0cae034d514d732c7e8e54b94b93761b0003a03751d807bd7b27e478d77c10).
Definition ty11953 : Z * Z := (0x1026a0e6c65bc3f1d5026fbb6bfbadf9574e9c26d1b5dc61d27ac098b543b037df80aeb5130286f3f4e8eaef3057691e, 0xacd246606fd28fdb12ccc215ef5fc6d15d6d2e0ef71a61f83773d20e1e68488eda1bcd2a298d43680775d3beaea4f8a).
Definition T11953 : g2pt := pt tx11953 ty11953.
Lemma T11953_on : t_on ctx_blsp (lz tx11953) (lz ty11953) (l2 4 4) = true. Proof. vm_cast_no_check (@eq_refl bool true). Qed.
Lemma T11953_chk : t_check ctx_blsp (lz tx11953) (lz ty11953) (l2 1 0) 11953 = true. Proof. vm_cast_no_check (@eq_refl bool true). Qed.
Lemma T11953_ord : g2_on T11953 /\ g2_mul 11953 T11953 = g2_inf.
Proof. exact (tors tx11953 ty11953 11953 eq_refl T11953_on T11953_chk). Qed.

Definition tx262069 : Z * Z := (0x575490fe40c072723d0dc6ef99ad2e30f055982a092762e166d8f1880c3ddecd50e66bb7561754ae4606412c6051eb1, 0x1cd4effda38ab40b8de3d3ab5d114fbce89db8d609e3a64736254970202588a654ea38a62ebe49ed6d8b6d42208fb48).
Definition ty262069 : Z * Z := (0x189e0bd5d75c091ba8c7ed3bfd3d55f6a502ea94a96946b2a905bcf9dfac4ec395db16881cc1cdf4022ce1b3d14db133, 0xaf96ec8333ed23247b78fcfb7dc9f5caa299c790bd4ec083496ec0d240443148ca51dd7dfc654f0bccfddb8026392f3).
Definition T262069 : g2pt := pt tx262069 ty262069.
Lemma T262069_on : t_on ctx_blsp (lz tx262069) (lz ty262069) (l2 4 4) = true. Proof. vm_cast_no_check (@eq_refl bool true). Qed.
Lemma T262069_chk : t_check ctx_blsp (lz tx262069) (lz ty262069) (l2 1 0) 262069 = true. Proof. vm_cast_no_check (@eq_refl bool true). Qed.
Lemma T262069_ord : g2_on T262069 /\ g2_mul 262069 T262069 = g2_inf.
Proof. exact (tors tx262069 ty262069 262069 eq_refl T262069_on T262069_chk). Qed.

Definition txP : Z * Z := (0x14288779007ff697784dd66a4c5f88321c1c890285a242b5ce5b8346c3d0a85eccb4699d52bdc8fa9c7f91432609c800, 0xe05d17cea7a27457fd1540b850703b9947aca9d91eb377a5ef9d6deb722d6091e53aad9b2764e93d4bf856ed210382b).
Definition tyP : Z * Z := (0xc52ef2c355388741730ba302bf20a6b5e40e97f19de90d38d3a4ce4fd0b0f74b8da4a4b8831cdb0fac397a2fec9a0ed, 0x3c51f2e604863f57d08b2ca4dd1d61ff7fb35605d424170056e0cb0e00c083d3e3be705130ec470e12cc7f892a4e4f1).
Definition TP : g2pt := pt txP tyP.
Lemma TP_on : t_on ctx_blsp (lz txP) (lz tyP) (l2 4 4) = true. Proof. vm_cast_no_check (@eq_refl bool true). Qed.
Lemma TP_chk : t_check ctx_blsp (lz txP) (lz tyP) (l2 1 0) oP = true. Proof. vm_cast_no_check (@eq_refl bool true). Qed.
Lemma TP_ord : g2_on TP /\ g2_mul oP TP = g2_inf.
Proof. exact (tors txP tyP oP eq_refl TP_on TP_chk). Qed.

Lemma ne13 : forallb (t_ne ctx_blsp (lz tx13) (lz ty13) (l2 1 0) (lz tx13b)) (map Z.of_nat (seq 1 12)) = true.
Proof. vm_cast_no_check (@eq_refl bool true). Qed.
Lemma ne23 : forallb (t_ne ctx_blsp (lz tx23) (lz ty23) (l2 1 0) (lz tx23b)) (map Z.of_nat (seq 1 22)) = true.
Proof. vm_cast_no_check (@eq_refl bool true). Qed.
Lemma indep x y a b (q : nat) : g2_on (pt x y) ->
  forallb (t_ne ctx_blsp (lz x) (lz y) (l2 1 0) (lz a)) (map Z.of_nat (seq 1 (q - 1))) = true ->
  forall k, 0 <= k < Z.of_nat q -> pt a b <> g2_mul k (pt x y).
Proof.
  intros ON H k Hk. destruct (Z.eq_dec k 0) as [->|Nk]; [discriminate|].
  rewrite forallb_forall in H. apply tors_ne; [exact ON|apply Z.ltb_lt; lia|]. apply H.
  apply in_map_iff. exists (Z.to_nat k). split; [lia|]. apply in_seq. lia.
Qed.
Lemma ind13 : forall k, 0 <= k < 13 -> T13b <> g2_mul k T13.
Proof. exact (indep tx13 ty13 tx13b ty13b 13 (proj1 T13_ord) ne13). Qed.
Lemma ind23 : forall k, 0 <= k < 23 -> T23b <> g2_mul k T23.
Proof. exact (indep tx23 ty23 tx23b ty23b 23 (proj1 T23_ord) ne23). Qed.
