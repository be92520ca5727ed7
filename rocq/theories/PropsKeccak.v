(** C83: the permutation of the amd64 build of package sha3. *)
From Coq Require Import ZArith List Bool Lia.
From Verif Require Import Base Words ModelBlake ModelSha3Code ModelSha3 SpecSha3 ProofSha3F ModelKeccakAsm ModelKeccakX ProofKeccakX.
Import ListNotations.
Open Scope Z_scope.

(** C83. For every state of 25 words, and whatever the 14 registers and the 25 words of
    the stack frame held before, the assembly routine leaves Keccak-f[1600] of FIPS 202
    in the caller's state, which is what the portable Go routine computes. *)
Theorem C83_keccak_amd64 : forall regs frame a : list Z,
  length regs = 14%nat -> Forall w64_ok regs -> length frame = 25%nat -> Forall w64_ok frame ->
  length a = 25%nat -> Forall w64_ok a ->
  keccakF1600_amd64 regs frame a = Sha3Spec.keccak_f a /\ keccakF1600_amd64 regs frame a = keccakF1600 a.
Proof.
  intros regs frame a Lr Vr Lf Vf La Va. rewrite (amd64_ok regs frame a Lr Vr Lf Vf La Va). split; [reflexivity|].
  symmetry. exact (proj1 (keccakF1600_eq a La Va)).
Qed.
(** The routine stays inside the memory it may use: it names words 0 to 24 of the
    caller's state, and the words it names of the frame end at the size declared. *)
Theorem C83_keccak_amd64_memory : Forall (fun i =>
    Forall (fun n => Z.of_nat n * 8 + 8 <= keccak_frame) (kins_slots i) /\ Forall (fun n => (n < 25)%nat) (kins_state i)) keccak_asm.
Proof.
  apply Forall_forall. intros i Hi.
  assert (E : forallb (fun i => forallb (fun n => Z.of_nat n * 8 + 8 <=? keccak_frame) (kins_slots i) && forallb (fun n => Nat.ltb n 25) (kins_state i)) keccak_asm = true)
    by (vm_compute; reflexivity).
  rewrite forallb_forall in E. specialize (E i Hi). apply andb_true_iff in E. destruct E as [E1 E2].
  rewrite forallb_forall in E1, E2. split; apply Forall_forall; intros n Hn.
  - apply Z.leb_le. exact (E1 n Hn).
  - apply PeanoNat.Nat.ltb_lt. exact (E2 n Hn).
Qed.

(** Not vacuous: the zero state, with registers and frame full of ones; the first two
    words of the result are those of the published test vector. *)
Example C83_case : let o := 2 ^ 64 - 1 in
  firstn 2 (keccakF1600_amd64 (repeat o 14) (repeat o 25) (repeat 0 25)) = [0xF1258F7940E1DDE7; 0x84D5CCF933C0478A]
  /\ Forall w64_ok (repeat o 14) /\ Forall w64_ok (repeat 0 25).
Proof.
  split; [vm_compute; reflexivity|]. split; apply Forall_forall; intros x Hx; apply repeat_spec in Hx; subst x; split; vm_compute; congruence.
Qed.

Print Assumptions C83_keccak_amd64.
Print Assumptions C83_keccak_amd64_memory.
