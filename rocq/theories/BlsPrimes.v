(** Primality of the order of the BLS12-381 groups, by a Pocklington certificate
    checked in the kernel, and the context for arithmetic modulo the field prime.
    Generated by tools/mkblsprime.py. *)
Require Import ZArith List Znumtheory Uint63.
Require Import Verif.Base Verif.Fp Verif.Mont63 Verif.Pock.
Import ListNotations.
Open Scope Z_scope.

Lemma prime_b2 : prime 2.
Proof. apply small_prime_ok. vm_compute. reflexivity. Qed.

Lemma prime_b859267 : prime 859267.
Proof. apply small_prime_ok. vm_compute. reflexivity. Qed.

Lemma prime_b906349 : prime 906349.
Proof. apply small_prime_ok. vm_compute. reflexivity. Qed.

Lemma prime_b2508409 : prime 2508409.
Proof. apply small_prime_ok. vm_compute. reflexivity. Qed.

Lemma prime_b2529403 : prime 2529403.
Proof. apply small_prime_ok. vm_compute. reflexivity. Qed.

Lemma prime_b125527 : prime 125527.
Proof. apply small_prime_ok. vm_compute. reflexivity. Qed.

Lemma prime_b10177 : prime 10177.
Proof. apply small_prime_ok. vm_compute. reflexivity. Qed.

Definition ctx_blsr : mctx := {|
  mc_n := 10; mc_p := 52435875175126190479447740508185965837690552500527637822603658699938581184513;
  mc_M := [1; 268435440; 240910079; 171978751; 134566845; 8428061; 137574872; 43636692; 65906515; 7]%uint63;
  mc_mi := 268435455%uint63;
  mc_r := 28317221591935776371992407060431155255531367567575973122471220049018399468031;
  mc_m1 := [37048469; 212530864; 104557309; 102889561; 114293568; 236922723; 28174977; 251828379; 136788221; 0]%uint63 |}.
Lemma ctx_blsr_ok : mctx_ok ctx_blsr = true.
Proof. vm_compute. reflexivity. Qed.

Lemma prime_blsr : prime 52435875175126190479447740508185965837690552500527637822603658699938581184513.
Proof.
  refine (pocklington ctx_blsr [(2, 32, 5); (859267, 1, 2); (906349, 2, 2); (2508409, 1, 2); (2529403, 1, 2); (125527, 1, 2); (10177, 1, 2)] ctx_blsr_ok _ _).
  - repeat (apply Forall_cons; [cbn [fst]|]); [exact prime_b2 | exact prime_b859267 | exact prime_b906349 | exact prime_b2508409 | exact prime_b2529403 | exact prime_b125527 | exact prime_b10177 | apply Forall_nil].
  - vm_compute. reflexivity.
Qed.

Definition ctx_blsp : mctx := {|
  mc_n := 14; mc_p := 4002409555221667393417789825735904156556882819939007885332058136124031650490837864442687629129015664037894272559787;
  mc_M := [268413611; 267386879; 67108793; 268430101; 103030443; 168782607; 258420946; 255349035; 74926980; 79351158; 195540547; 241804465; 32127359; 106513]%uint63;
  mc_mi := 268238845%uint63;
  mc_r := 2514128865546716520952785953976253554081406324674822213899145074122859742170541280619393841074214235878037313279475;
  mc_m1 := [213364211; 40894463; 66932384; 254936131; 162663371; 30755454; 254790195; 26696173; 180793410; 59855301; 110222516; 240572981; 194002053; 84118]%uint63 |}.
Lemma ctx_blsp_ok : mctx_ok ctx_blsp = true.
Proof. vm_compute. reflexivity. Qed.
