(** Property C99: each BLS12-381 public key belongs to one secret key. *)
From Coq Require Import ZArith List Bool Lia Znumtheory FinFun.
From Verif Require Import Base ModelECDSA ModelApi ModelBlsF SpecBls ModelBls SpecBlsG Fp BlsFp2 Weier Group SpecBlsSig SpecBlsPair ProofBlsI ProofBlsJ ProofBlsK ProofBlsL PropsBlsApi PropsBlsSig CycGroup.
Import ListNotations.
Local Open Scope Z_scope.
Lemma few_points : 256 ^ Z.of_nat 48 < bls_r * bls_r.
Proof. vm_compute. reflexivity. Qed.
Lemma gen_ne : g1_gen <> g1_inf.
Proof. discriminate. Qed.
Local Opaque bls_p bls_r Group.zmul.
Lemma g1_cyclic A : in_G1 A -> exists d, 0 <= d < bls_r /\ A = g1_mul d g1_gen.
Proof.
  intros HA. apply (cyc_group g1pt g1_inf g1_add g1_neg in_G1 G1_closed pt_dec bls_r (256 ^ Z.of_nat 48) (fun Q => be2z (key_bytes Q))).
  - exact r_prime.
  - intros Q HQ. exact (proj2 HQ).
  - intros Q _. destruct (key_bytes_ok repaired repaired_exact repaired_square Q) as [O L]. rewrite <- L. apply be2z_bound, O.
  - intros Q R HQ HR E. apply key_inj; [exact HQ | exact HR|].
    destruct (key_bytes_ok repaired repaired_exact repaired_square Q) as [O L]. destruct (key_bytes_ok repaired repaired_exact repaired_square R) as [O' L'].
    rewrite <- (z2be_be2z _ O), <- (z2be_be2z _ O'), L, L', E. reflexivity.
  - exact few_points.
  - exact gen_in.
  - exact HA.
  - exact gen_ne.
Qed.
Lemma g1_mul_inj d d' : 0 <= d < bls_r -> 0 <= d' < bls_r -> g1_mul d g1_gen = g1_mul d' g1_gen -> d = d'.
Proof.
  intros H H' E. apply (zmul_inj _ _ _ _ _ G1_closed bls_r d d' g1_gen gen_in r_prime (proj2 gen_in) gen_ne) in E.
  rewrite !Z.mod_small in E by assumption. exact E.
Qed.
Lemma mul_in d : in_G1 (g1_mul d g1_gen).
Proof. exact (zmul_ok _ _ _ _ _ G1_closed d g1_gen gen_in). Qed.

(** A byte string that is decoded as a public key is the encoding of d times the
    generator for exactly one d below r, *)
Theorem C99_one_key_partial : forall F, exact_build F -> forall pub PA, bytes_ok pub -> length pub = 48%nat ->
  g_FromCompressed (C1 F) pub = Some PA ->
  exists d, 0 <= d < bls_r /\ pub = key_bytes (g1_mul d g1_gen) /\
    forall d', 0 <= d' < bls_r -> pub = key_bytes (g1_mul d' g1_gen) -> d' = d.
Proof.
  intros F [HF HS] pub PA O L D. destruct (key_dec_sound F HF HS pub PA O L D) as (Q & _ & HQ & <- & _).
  destruct (g1_cyclic Q HQ) as (d & Hd & ->). exists d. split; [exact Hd|]. split; [reflexivity|].
  intros d' Hd' E. apply (g1_mul_inj d' d Hd' Hd). apply key_inj; [apply mul_in.. | symmetry; exact E].
Qed.
Print Assumptions C99_one_key_partial.
(** so exactly r strings of 48 bytes are decoded; *)
Lemma range_list n : exists l : list Z, NoDup l /\ length l = n /\ forall d, In d l <-> 0 <= d < Z.of_nat n.
Proof.
  exists (map Z.of_nat (seq 0 n)). split; [|split].
  - apply Injective_map_NoDup; [intros a b; apply Nat2Z.inj | apply seq_NoDup].
  - rewrite map_length. apply seq_length.
  - intros d. rewrite in_map_iff. split.
    + intros (k & <- & Hk). apply in_seq in Hk. lia.
    + intros H. exists (Z.to_nat d). split; [lia|]. apply in_seq. lia.
Qed.
Lemma NoDup_map_in {A B} (f : A -> B) l : (forall x y, In x l -> In y l -> f x = f y -> x = y) -> NoDup l -> NoDup (map f l).
Proof.
  intros H N. induction N as [|x l Nx N IH]; [constructor|]. cbn [map]. constructor.
  - intros I. apply in_map_iff in I. destruct I as (y & E & Hy). apply Nx. rewrite (H x y); [exact Hy | left; reflexivity | right; exact Hy | symmetry; exact E].
  - apply IH. intros a b Ha Hb. apply H; right; assumption.
Qed.
Theorem C99_count_partial : forall F, exact_build F -> exists l : list bytes, NoDup l /\ Z.of_nat (length l) = bls_r /\
  forall pub, bytes_ok pub -> length pub = 48%nat -> (In pub l <-> exists PA, g_FromCompressed (C1 F) pub = Some PA).
Proof.
  intros F HE. assert (R : Z.of_nat (Z.to_nat bls_r) = bls_r) by (apply Z2Nat.id, Z.lt_le_incl, r_pos).
  destruct (range_list (Z.to_nat bls_r)) as (l & N & L & I). rewrite R in I. rewrite <- L in R. clear L.
  exists (map (fun d => key_bytes (g1_mul d g1_gen)) l). split; [|split].
  - apply NoDup_map_in; [|exact N]. intros d d' Hd Hd' E. apply I in Hd. apply I in Hd'. apply (g1_mul_inj d d' Hd Hd').
    apply key_inj; [apply mul_in.. | exact E].
  - rewrite map_length. exact R.
  - intros pub O L. split.
    + intros H. apply in_map_iff in H. destruct H as (d & <- & _). destruct HE as [HF HS].
      destruct (key_dec_complete F HF HS _ (mul_in d)) as (P & D & _). exists P. exact D.
    + intros (PA & D). destruct (C99_one_key_partial F HE pub PA O L D) as (d & Hd & -> & _). apply in_map_iff. exists d. split; [reflexivity | apply I, Hd].
Qed.
Print Assumptions C99_count_partial.
(** and Verify accepts a key and a signature exactly if they are those of one secret key. *)
Theorem C99_verify_partial : forall F h pairs_one privToPub B, exact_build F -> runs_bls F h pairs_one privToPub B ->
  forall (GT : Type) (one : GT) mul inv ok e, pairing one mul inv ok e -> decides_pairing pairs_one one mul e ->
  forall typ pub ID m sig H PH, bytes_ok pub -> bytes_ok sig ->
  hashes_to h typ pub m PH -> affine2 PH H -> in_G2 H ->
  Verify B pub ID m sig typ = Ret SUCCESS <->
  exists d, 0 <= d < bls_r /\ pub = key_bytes (g1_mul d g1_gen) /\ sig = sig_bytes (g2_mul d H).
Proof.
  intros F h pairs_one privToPub B HE R GT one mul inv ok e PR DP typ pub ID m sig H PH OP OS HT AH HH. split.
  - intros V. assert (K : exists PA, length pub = 48%nat /\ g_FromCompressed (C1 F) pub = Some PA).
    { revert V. rewrite (ver_hash _ _ _ _ _ R _ _ _ _ _ _ HT). unfold verify_as.
      destruct (Nat.eqb_spec (length pub) 48) as [LP|LP]; cbn [negb orb]; [|discriminate].
      destruct (g_FromCompressed (C1 F) pub) as [PA|]; [intros _; exists PA; split; [exact LP | reflexivity]|].
      destruct (Nat.eqb (length sig) 96); cbn [negb]; [|discriminate]. destruct (g_FromCompressed (C2 F) sig); discriminate. }
    destruct K as (PA & L & D). destruct (C99_one_key_partial F HE pub PA OP L D) as (d & Hd & E & _). exists d. split; [exact Hd|]. split; [exact E|].
    subst pub. exact (proj1 (C86_accepted_exact_partial F h pairs_one privToPub B HE R GT one mul inv ok e PR DP typ ID m sig d H PH (proj1 Hd) OS HT AH HH) V).
  - intros (d & Hd & -> & E).
    exact (proj2 (C86_accepted_exact_partial F h pairs_one privToPub B HE R GT one mul inv ok e PR DP typ ID m sig d H PH (proj1 Hd) OS HT AH HH) E).
Qed.
Print Assumptions C99_verify_partial.
(** The encoding of the generator is such a key, of the secret key 1. *)
Example C99_met : exact_build repaired /\ exists PA, g_FromCompressed (C1 repaired) (key_bytes (g1_mul 1 g1_gen)) = Some PA /\
  bytes_ok (key_bytes (g1_mul 1 g1_gen)) /\ length (key_bytes (g1_mul 1 g1_gen)) = 48%nat.
Proof.
  split; [exact (proj2 C85_builds)|]. destruct (key_dec_complete repaired repaired_exact repaired_square _ (mul_in 1)) as (PA & D & _).
  exists PA. split; [exact D|]. exact (key_bytes_ok repaired repaired_exact repaired_square _).
Qed.
