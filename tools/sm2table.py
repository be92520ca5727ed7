"""Prints rocq/theories/ProofSM2T.v: certificates that the table of sm2_std.go:132-193 holds the
multiples of the base point that sm2_stdScalarBaseMult needs."""
p=0xFFFFFFFEFFFFFFFFFFFFFFFFFFFFFFFFFFFFFFFF00000000FFFFFFFFFFFFFFFF
G=(0x32C4AE2C1F1981195F9904466A39C9948FE30BBFF2660BE1715A4589334C74C7,0xBC3736A2F4F6779C59BDCEE36B692153D0A9877CC62A474002DF32E52139F0A0)
def add(P,Q):
    if P is None: return Q
    if Q is None: return P
    if P[0]==Q[0]:
        if (P[1]+Q[1])%p==0: return None
        l=(3*P[0]**2-3)*pow(2*P[1],-1,p)%p
    else: l=(Q[1]-P[1])*pow(Q[0]-P[0],-1,p)%p
    x=(l*l-P[0]-Q[0])%p
    return (x,(l*(P[0]-x)-P[1])%p)
def mul(k,P):
    R=None
    while k:
        if k&1: R=add(R,P)
        P=add(P,P); k>>=1
    return R
def scal(h,i): return sum(((i>>t)&1)<<(64*t+32*h) for t in range(4))
print('''(** Certificates for the precomputed table of /repo/sm2_std.go:132-193, generated by
    tools/sm2table.py: entry i of half h is the multiple of the base point by
    2^(32 h) (b0 + 2^64 b1 + 2^128 b2 + 2^192 b3), the b being the bits of i. *)
From Coq Require Import ZArith List Lia Znumtheory Ring Field Bool.
From Verif Require Import Base Fp Weier Jac Group EC Mont63 Primes Curves ModelECDSA ProofECDSA
  ModelSM2F ProofSM2M ModelSM2P ProofSM2P.
Import ListNotations.
Open Scope Z_scope.

Local Notation G := (w_G sm2p256).
Local Notation mulG k := (w_mul sm2p256 k G).

(** (x3, y3) is the sum of (x1, y1) and (x2, y2), l being the slope. *)
Definition add_check (p x1 y1 x2 y2 l x3 y3 : Z) : bool :=
  ((l * (x2 - x1)) mod p =? (y2 - y1) mod p) && negb ((x2 - x1) mod p =? 0)
  && ((l * l - x1 - x2) mod p =? x3 mod p) && ((l * (x1 - x3) - y1) mod p =? y3 mod p).

Section AddCheck.
Variable c : wcurve.
Hypothesis Hf : w_field_ok c.
Lemma Kf5 : field_theory (fp_of (w_p c) 0) (fp_of (w_p c) 1) fp_add fp_mul fp_sub fp_opp fp_div fp_inv eq.
Proof. exact (fp_field _ (wv_prime c Hf)). Qed.
Add Field KFT : Kf5.
Lemma add_check_ok x1 y1 x2 y2 l x3 y3 :
  add_check (w_p c) x1 y1 x2 y2 l x3 y3 = true ->
  w_add c (paff c x1 y1) (paff c x2 y2) = paff c x3 y3.
Proof.
  intros H. unfold add_check in H. rewrite !andb_true_iff in H.
  destruct H as [[[H1 H2] H3] H4].
  apply Z.eqb_eq in H1, H3, H4. apply negb_true_iff, Z.eqb_neq in H2.
  apply fp_of_eq in H1, H3, H4. rewrite !fp_of_sub, !fp_of_mul, ?fp_of_sub in *.
  assert (Nx : fp_sub (fp_of (w_p c) x2) (fp_of (w_p c) x1) <> fp_of (w_p c) 0).
  { rewrite <- fp_of_sub. intros E. apply H2. apply fp_of_0 in E. exact E. }
  unfold w_add, paff. cbn [padd].
  destruct (fp_dec (fp_of (w_p c) x1) (fp_of (w_p c) x2)) as [E|_].
  { exfalso. apply Nx. rewrite E. ring. }
  cbv zeta.
  assert (El : fp_div (fp_sub (fp_of (w_p c) y2) (fp_of (w_p c) y1))
                 (fp_sub (fp_of (w_p c) x2) (fp_of (w_p c) x1)) = fp_of (w_p c) l).
  { rewrite <- H1. field. exact Nx. }
  rewrite El, H3, H4. reflexivity.
Qed.
End AddCheck.

Lemma sum_ok j k m x1 y1 x2 y2 l x3 y3 : j + k = m ->
  mulG j = paff sm2p256 x1 y1 -> mulG k = paff sm2p256 x2 y2 ->
  add_check (w_p sm2p256) x1 y1 x2 y2 l x3 y3 = true -> mulG m = paff sm2p256 x3 y3.
Proof.
  intros <- H1 H2 H3. rewrite <- (mulG_add sm2p256 sm2p256_valid). rewrite H1, H2.
  exact (add_check_ok sm2p256 (wv_field _ sm2p256_valid) _ _ _ _ l _ _ H3).
Qed.
''')
T={}
for h in range(2):
    for i in range(1,16):
        k=scal(h,i); P=mul(k,G); T[h,i]=P
        print(f'Lemma t{h}_{i} : mulG {k} =\n  paff sm2p256 {P[0]}\n    {P[1]}.')
        if k==1: print('Proof. exact (zmul_1 _ _ _ _ _ (w_group _ (wv_field _ sm2p256_valid)) G (wv_Gon _ sm2p256_valid)). Qed.')
        elif i&(i-1)==0: print('Proof. apply (mul_check_ok ctx_sm2p sm2p256); [exact prime_sm2p|]. vm_compute. reflexivity. Qed.')
        else:
            hb=1<<(i.bit_length()-1); A=T[h,i-hb]; B=T[h,hb]
            l=(B[1]-A[1])*pow(B[0]-A[0],-1,p)%p
            print(f'Proof.\n  apply (sum_ok _ _ _ _ _ _ _ {l} _ _ eq_refl t{h}_{i-hb} t{h}_{hb}).\n  vm_compute. reflexivity.\nQed.')
print('''
Definition tab_scalar (half : nat) (i : Z) : Z :=
  2 ^ (32 * Z.of_nat half) * (i mod 2 + 2 ^ 64 * (i / 2 mod 2) + 2 ^ 128 * (i / 4 mod 2) + 2 ^ 192 * (i / 8 mod 2)).
Definition row_is (row : fe * fe) (x y : Z) : bool :=
  (fe_okb (fst row) && (sm2_to_big (fst row) =? x)) && (fe_okb (snd row) && (sm2_to_big (snd row) =? y)).
''')
for h in range(2):
    print(f'Definition coords{h} : list (Z * Z) :=\n  [' + ';\n   '.join(f'({T[h,i][0]},\n    {T[h,i][1]})' for i in range(1,16)) + '].')
    print(f'''Lemma rows{h} : forallb (fun t => row_is (fst t) (fst (snd t)) (snd (snd t))) (combine (sm2_table {h}) coords{h}) = true.
Proof. vm_compute. reflexivity. Qed.''')
    print(f'''Lemma tab{h} i : 1 <= i <= 15 ->
  exists x y, row_is (nth (Z.to_nat i - 1) (sm2_table {h}) (fe_zero, fe_zero)) x y = true /\\
    mulG (tab_scalar {h} i) = paff sm2p256 x y.
Proof.
  intros Hi.
  assert (S : forall j, (j < 15)%nat -> row_is (nth j (sm2_table {h}) (fe_zero, fe_zero))
    (fst (nth j coords{h} (0, 0))) (snd (nth j coords{h} (0, 0))) = true).
  {{ intros j Hj. pose proof rows{h} as R. rewrite forallb_forall in R.
    specialize (R (nth j (combine (sm2_table {h}) coords{h}) (fe_zero, fe_zero, (0, 0)))).
    rewrite combine_nth in R by reflexivity. apply R. rewrite <- combine_nth by reflexivity.
    apply nth_In. exact Hj. }}''')
    print('  assert (C : '+' \\/ '.join(f'i = {i}' for i in range(1,16))+') by lia.')
    print('  clear Hi. destruct C as ['+' | ['.join('->' for i in range(1,15))+' | ->'+']'*14+'.')
    for i in range(1,16):
        print(f'  - exists {T[h,i][0]}, {T[h,i][1]}. split; [exact (S {i-1}%nat ltac:(lia))|].\n    replace (tab_scalar {h} {i}) with {scal(h,i)} by (vm_compute; reflexivity). exact t{h}_{i}.')
    print('Qed.')
