(** Primality of the largest prime factor of the cofactor of the group of the
    signatures of BLS12-381, by Pocklington certificates checked in the kernel.
    Generated by tools/mkblsprime2.py. *)
Require Import ZArith List Znumtheory Uint63.
Require Import Verif.Base Verif.Fp Verif.Mont63 Verif.Pock.
Import ListNotations.
Open Scope Z_scope.

Lemma prime_c107 : prime 107.
Proof. apply small_prime_ok. vm_compute. reflexivity. Qed.

Lemma prime_c541 : prime 541.
Proof. apply small_prime_ok. vm_compute. reflexivity. Qed.

Lemma prime_c1367711 : prime 1367711.
Proof. apply small_prime_ok. vm_compute. reflexivity. Qed.

Definition ctx_cx : mctx := {|
  mc_n := 2; mc_p := 12192593745179;
  mc_M := [255333659; 45420]%uint63;
  mc_mi := 178438893%uint63;
  mc_r := 4780301330876;
  mc_m1 := [146226514; 2365]%uint63 |}.
Lemma ctx_cx_ok : mctx_ok ctx_cx = true.
Proof. vm_compute. reflexivity. Qed.

Lemma prime_cx : prime 12192593745179.
Proof.
  refine (pocklington ctx_cx [(107, 1, 2); (541, 1, 2); (1367711, 1, 2)] ctx_cx_ok _ _).
  - repeat (apply Forall_cons; [cbn [fst]|]); [exact prime_c107 | exact prime_c541 | exact prime_c1367711 | apply Forall_nil].
  - vm_compute. reflexivity.
Qed.

Definition ctx_cw : mctx := {|
  mc_n := 2; mc_p := 512088937297519;
  mc_M := [255030895; 1907679]%uint63;
  mc_mi := 481137%uint63;
  mc_r := 318694337893841;
  mc_m1 := [257440547; 547416]%uint63 |}.
Lemma ctx_cw_ok : mctx_ok ctx_cw = true.
Proof. vm_compute. reflexivity. Qed.

Lemma prime_cw : prime 512088937297519.
Proof.
  refine (pocklington ctx_cw [(12192593745179, 1, 2)] ctx_cw_ok _ _).
  - repeat (apply Forall_cons; [cbn [fst]|]); [exact prime_cx | apply Forall_nil].
  - vm_compute. reflexivity.
Qed.

Definition ctx_cv : mctx := {|
  mc_n := 3; mc_p := 1857858664515398933;
  mc_M := [223505685; 210176458; 25]%uint63;
  mc_mi := 169838019%uint63;
  mc_r := 843126191973313917;
  mc_m1 := [125786361; 125429840; 25]%uint63 |}.
Lemma ctx_cv_ok : mctx_ok ctx_cv = true.
Proof. vm_compute. reflexivity. Qed.

Lemma prime_cv : prime 1857858664515398933.
Proof.
  refine (pocklington ctx_cv [(512088937297519, 1, 2)] ctx_cv_ok _ _).
  - repeat (apply Forall_cons; [cbn [fst]|]); [exact prime_cw | apply Forall_nil].
  - vm_compute. reflexivity.
Qed.

Definition ctx_cu : mctx := {|
  mc_n := 3; mc_p := 22294303974184787197;
  mc_M := [266149117; 106198401; 309]%uint63;
  mc_mi := 57089963%uint63;
  mc_r := 13057279889408103236;
  mc_m1 := [80581033; 254487772; 205]%uint63 |}.
Lemma ctx_cu_ok : mctx_ok ctx_cu = true.
Proof. vm_compute. reflexivity. Qed.

Lemma prime_cu : prime 22294303974184787197.
Proof.
  refine (pocklington ctx_cu [(1857858664515398933, 1, 2)] ctx_cu_ok _ _).
  - repeat (apply Forall_cons; [cbn [fst]|]); [exact prime_cv | apply Forall_nil].
  - vm_compute. reflexivity.
Qed.

Definition ctx_ct : mctx := {|
  mc_n := 3; mc_p := 19931107752921199754119;
  mc_M := [103496583; 183655412; 276599]%uint63;
  mc_mi := 39740873%uint63;
  mc_r := 6251071538990848541393;
  mc_m1 := [100321549; 88262642; 142837]%uint63 |}.
Lemma ctx_ct_ok : mctx_ok ctx_ct = true.
Proof. vm_compute. reflexivity. Qed.

Lemma prime_ct : prime 19931107752921199754119.
Proof.
  refine (pocklington ctx_ct [(22294303974184787197, 1, 2)] ctx_ct_ok _ _).
  - repeat (apply Forall_cons; [cbn [fst]|]); [exact prime_cu | apply Forall_nil].
  - vm_compute. reflexivity.
Qed.

Definition ctx_cs : mctx := {|
  mc_n := 6; mc_p := 81162125843606155545104998607900118769099783;
  mc_M := [134112263; 107985770; 229467490; 62444554; 62000403; 58]%uint63;
  mc_mi := 113522249%uint63;
  mc_r := 7529431777198160002789794747748686464050845;
  mc_m1 := [93947479; 53676495; 76349865; 23600398; 180900491; 54]%uint63 |}.
Lemma ctx_cs_ok : mctx_ok ctx_cs = true.
Proof. vm_compute. reflexivity. Qed.

Lemma prime_cs : prime 81162125843606155545104998607900118769099783.
Proof.
  refine (pocklington ctx_cs [(19931107752921199754119, 1, 2)] ctx_cs_ok _ _).
  - repeat (apply Forall_cons; [cbn [fst]|]); [exact prime_ct | apply Forall_nil].
  - vm_compute. reflexivity.
Qed.

Definition ctx_cr : mctx := {|
  mc_n := 9; mc_p := 26935696298915610574513298451669528361624243820491956655650666425177;
  mc_M := [245607257; 256081529; 168575069; 160269423; 41546911; 36557084; 91474065; 268193999; 0]%uint63;
  mc_mi := 129241879%uint63;
  mc_r := 20026922397111458645239674855964264057419816264481682065864206867629;
  mc_m1 := [148933843; 149662286; 186955537; 192713212; 181897960; 227132144; 29269991; 256365353; 0]%uint63 |}.
Lemma ctx_cr_ok : mctx_ok ctx_cr = true.
Proof. vm_compute. reflexivity. Qed.

Lemma prime_cr : prime 26935696298915610574513298451669528361624243820491956655650666425177.
Proof.
  refine (pocklington ctx_cr [(81162125843606155545104998607900118769099783, 1, 2)] ctx_cr_ok _ _).
  - repeat (apply Forall_cons; [cbn [fst]|]); [exact prime_cs | apply Forall_nil].
  - vm_compute. reflexivity.
Qed.

Definition ctx_cq : mctx := {|
  mc_n := 14; mc_p := 4638704574076146691498289350639807119782054683906549022985642612861209609656189848749536921852444848596916990932297;
  mc_M := [162297161; 195613709; 62792282; 232462006; 188049832; 8906637; 212671704; 219029355; 147960861; 160823306; 44609521; 220441546; 96948951; 123446]%uint63;
  mc_mi := 198275847%uint63;
  mc_r := 3748758570855385131223181448819430085637947567663978072658565447227925783186343161832428433684579518928658505372755;
  mc_m1 := [3700535; 258056086; 208003286; 140899910; 181186995; 44584166; 46665584; 184349904; 229198161; 19292580; 120509862; 34638495; 142137251; 60379]%uint63 |}.
Lemma ctx_cq_ok : mctx_ok ctx_cq = true.
Proof. vm_compute. reflexivity. Qed.

Lemma prime_cq : prime 4638704574076146691498289350639807119782054683906549022985642612861209609656189848749536921852444848596916990932297.
Proof.
  refine (pocklington ctx_cq [(26935696298915610574513298451669528361624243820491956655650666425177, 1, 2)] ctx_cq_ok _ _).
  - repeat (apply Forall_cons; [cbn [fst]|]); [exact prime_cr | apply Forall_nil].
  - vm_compute. reflexivity.
Qed.

Definition ctx_cp : mctx := {|
  mc_n := 17; mc_p := 402096035359507321594726366720466575392706800671181159425656785868777272553337714697862511267018014931937703598282857976535744623203249;
  mc_M := [12637105; 114390816; 114127746; 121130242; 46364632; 228970274; 184203712; 146364536; 165108665; 169798442; 151804668; 81178116; 41454570; 96740183; 233761629; 148501763; 0]%uint63;
  mc_mi := 117992111%uint63;
  mc_r := 159434506332687235846608993159318192061771059424928362067276060732670244801015078553147387797488789490426868053977071697935615031394127;
  mc_m1 := [28250592; 73837319; 35177776; 226644901; 192728513; 169214462; 203572962; 101805484; 172187095; 134084773; 65530130; 111507820; 29680688; 88192321; 161860120; 6102638; 0]%uint63 |}.
Lemma ctx_cp_ok : mctx_ok ctx_cp = true.
Proof. vm_compute. reflexivity. Qed.

Lemma prime_cp : prime 402096035359507321594726366720466575392706800671181159425656785868777272553337714697862511267018014931937703598282857976535744623203249.
Proof.
  refine (pocklington ctx_cp [(4638704574076146691498289350639807119782054683906549022985642612861209609656189848749536921852444848596916990932297, 1, 2)] ctx_cp_ok _ _).
  - repeat (apply Forall_cons; [cbn [fst]|]); [exact prime_cq | apply Forall_nil].
  - vm_compute. reflexivity.
Qed.

Lemma prime_c13 : prime 13.
Proof. apply small_prime_ok. vm_compute. reflexivity. Qed.

Lemma prime_c23 : prime 23.
Proof. apply small_prime_ok. vm_compute. reflexivity. Qed.

Lemma prime_c2713 : prime 2713.
Proof. apply small_prime_ok. vm_compute. reflexivity. Qed.

Lemma prime_c11953 : prime 11953.
Proof. apply small_prime_ok. vm_compute. reflexivity. Qed.

Lemma prime_c262069 : prime 262069.
Proof. apply small_prime_ok. vm_compute. reflexivity. Qed.
