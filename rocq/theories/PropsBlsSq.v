(** Property C72, the positive part: where the portable squaring of BLS12-381 is right. *)
From Coq Require Import ZArith List Lia.
From Verif Require Import Base ModelBlsF SpecBls ModelBls SpecBlsG ProofBlsF ProofBlsE ProofBlsI ProofBlsK PropsBls ProofBlsSq.
Import ListNotations.
Local Open Scope Z_scope.
(** Elements whose Montgomery form has no word of 2^63 or more: the sums of the doubled
    products keep their carries. *)
Theorem C72_portable_square_partial : forall x u, fe_of x u -> Forall (fun w => w < 2 ^ 63) x ->
  fe_of (fb_square x) ((u * u) mod bls_p) /\ fb_square x = fb_mul x x.
Proof.
  intros x u H L. pose proof (pb_square x u H L) as S. split; [exact S|]. exact (fe_of_eq _ _ _ S (pb_mul _ _ _ _ H H)).
Qed.
Print Assumptions C72_portable_square_partial.
(** the squarings the theorems on the portable build ask for *)
Theorem C72_portable_sq_ok_partial : forall x, Forall (fun w => w < 2 ^ 63) x -> sq_ok portable x.
Proof. intros x L u H. exact (pb_square x u H L). Qed.
Print Assumptions C72_portable_sq_ok_partial.
Example C72_square_met : exists u, fe_of [1; 2 ^ 63 - 1; 3; 2 ^ 62; 5; 2 ^ 60] u /\ Forall (fun w => w < 2 ^ 63) [1; 2 ^ 63 - 1; 3; 2 ^ 62; 5; 2 ^ 60].
Proof.
  eexists. split; [apply fe_of_small; [reflexivity|repeat constructor; try discriminate; reflexivity|vm_compute; reflexivity]|repeat constructor].
Qed.
