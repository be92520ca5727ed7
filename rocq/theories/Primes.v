(** Primality of the curve constants, by Pocklington certificates checked in
    the kernel.  Generated by tools/mkprimes.py. *)
Require Import ZArith List Znumtheory Uint63.
Require Import Verif.Base Verif.Fp Verif.Mont63 Verif.Pock.
Import ListNotations.
Open Scope Z_scope.

Lemma prime_q53 : prime 53.
Proof. apply small_prime_ok. vm_compute. reflexivity. Qed.

Lemma prime_q29 : prime 29.
Proof. apply small_prime_ok. vm_compute. reflexivity. Qed.

Lemma prime_q7 : prime 7.
Proof. apply small_prime_ok. vm_compute. reflexivity. Qed.

Definition ctx_q107590001 : mctx := {|
  mc_n := 2; mc_p := 107590001;
  mc_M := [107590001; 0]%uint63;
  mc_mi := 65343599%uint63;
  mc_r := 22775360;
  mc_m1 := [55014544; 0]%uint63 |}.
Lemma ctx_q107590001_ok : mctx_ok ctx_q107590001 = true.
Proof. vm_compute. reflexivity. Qed.

Lemma prime_q107590001 : prime 107590001.
Proof.
  refine (pocklington ctx_q107590001 [(53, 1, 2); (29, 1, 2); (7, 1, 2)] ctx_q107590001_ok _ _).
  - repeat (apply Forall_cons; [cbn [fst]|]); [exact prime_q53 | exact prime_q29 | exact prime_q7 | apply Forall_nil].
  - vm_compute. reflexivity.
Qed.

Lemma prime_q1206781 : prime 1206781.
Proof. apply small_prime_ok. vm_compute. reflexivity. Qed.

Definition ctx_q7240687 : mctx := {|
  mc_n := 2; mc_p := 7240687;
  mc_M := [7240687; 0]%uint63;
  mc_mi := 85191921%uint63;
  mc_r := 1873736;
  mc_m1 := [6674918; 0]%uint63 |}.
Lemma ctx_q7240687_ok : mctx_ok ctx_q7240687 = true.
Proof. vm_compute. reflexivity. Qed.

Lemma prime_q7240687 : prime 7240687.
Proof.
  refine (pocklington ctx_q7240687 [(1206781, 1, 2)] ctx_q7240687_ok _ _).
  - repeat (apply Forall_cons; [cbn [fst]|]); [exact prime_q1206781 | apply Forall_nil].
  - vm_compute. reflexivity.
Qed.

Lemma prime_q1627 : prime 1627.
Proof. apply small_prime_ok. vm_compute. reflexivity. Qed.

Lemma prime_q11 : prime 11.
Proof. apply small_prime_ok. vm_compute. reflexivity. Qed.

Definition ctx_q512484175977_128 : mctx := {|
  mc_n := 5; mc_p := 255515944373312847190720520512484175977;
  mc_M := [261648489; 97357003; 105126304; 155921726; 49210]%uint63;
  mc_mi := 78897191%uint63;
  mc_r := 196639441225373582443265839298424418366;
  mc_m1 := [21187943; 117124714; 85856282; 149492858; 8262]%uint63 |}.
Lemma ctx_q512484175977_128_ok : mctx_ok ctx_q512484175977_128 = true.
Proof. vm_compute. reflexivity. Qed.

Lemma prime_q512484175977_128 : prime 255515944373312847190720520512484175977.
Proof.
  refine (pocklington ctx_q512484175977_128 [(107590001, 1, 2); (7240687, 1, 2); (1627, 1, 2); (11, 1, 2); (7, 2, 2)] ctx_q512484175977_128_ok _ _).
  - repeat (apply Forall_cons; [cbn [fst]|]); [exact prime_q107590001 | exact prime_q7240687 | exact prime_q1627 | exact prime_q11 | exact prime_q7 | apply Forall_nil].
  - vm_compute. reflexivity.
Qed.

Definition ctx_q503955397371_237 : mctx := {|
  mc_n := 9; mc_p := 205115282021455665897114700593932402728804164701536103180137503955397371;
  mc_M := [54045435; 79747663; 144340845; 154589021; 217490341; 167807228; 189139526; 39904739; 7608]%uint63;
  mc_mi := 130101197%uint63;
  mc_r := 169980475298098745442932960969995470362488048301247044637850946527417520;
  mc_m1 := [188039137; 264786396; 20573384; 24416451; 215776606; 130036574; 104481754; 14964277; 2853]%uint63 |}.
Lemma ctx_q503955397371_237_ok : mctx_ok ctx_q503955397371_237 = true.
Proof. vm_compute. reflexivity. Qed.

Lemma prime_q503955397371_237 : prime 205115282021455665897114700593932402728804164701536103180137503955397371.
Proof.
  refine (pocklington ctx_q503955397371_237 [(255515944373312847190720520512484175977, 1, 2)] ctx_q503955397371_237_ok _ _).
  - repeat (apply Forall_cons; [cbn [fst]|]); [exact prime_q512484175977_128 | apply Forall_nil].
  - vm_compute. reflexivity.
Qed.

Definition ctx_k1p : mctx := {|
  mc_n := 10; mc_p := 115792089237316195423570985008687907853269984665640564039457584007908834671663;
  mc_M := [268434479; 268435439; 268435455; 268435455; 268435455; 268435455; 268435455; 268435455; 268435455; 15]%uint63;
  mc_mi := 35992881%uint63;
  mc_r := 23751799548142884242902423797862457328124292427941062226134263457079244493376;
  mc_m1 := [251657263; 268435378; 268435454; 268435455; 268435455; 268435455; 268435455; 268435455; 268435455; 15]%uint63 |}.
Lemma ctx_k1p_ok : mctx_ok ctx_k1p = true.
Proof. vm_compute. reflexivity. Qed.

Lemma prime_k1p : prime 115792089237316195423570985008687907853269984665640564039457584007908834671663.
Proof.
  refine (pocklington ctx_k1p [(205115282021455665897114700593932402728804164701536103180137503955397371, 1, 2)] ctx_k1p_ok _ _).
  - repeat (apply Forall_cons; [cbn [fst]|]); [exact prime_q503955397371_237 | apply Forall_nil].
  - vm_compute. reflexivity.
Qed.

Lemma prime_q1627771 : prime 1627771.
Proof. apply small_prime_ok. vm_compute. reflexivity. Qed.

Definition ctx_q297159362677 : mctx := {|
  mc_n := 2; mc_p := 297159362677;
  mc_M := [1312885; 1107]%uint63;
  mc_mi := 178026531%uint63;
  mc_r := 255993377330;
  mc_m1 := [264155405; 1052]%uint63 |}.
Lemma ctx_q297159362677_ok : mctx_ok ctx_q297159362677 = true.
Proof. vm_compute. reflexivity. Qed.

Lemma prime_q297159362677 : prime 297159362677.
Proof.
  refine (pocklington ctx_q297159362677 [(1627771, 1, 2)] ctx_q297159362677_ok _ _).
  - repeat (apply Forall_cons; [cbn [fst]|]); [exact prime_q1627771 | apply Forall_nil].
  - vm_compute. reflexivity.
Qed.

Lemma prime_q293 : prime 293.
Proof. apply small_prime_ok. vm_compute. reflexivity. Qed.

Lemma prime_q2 : prime 2.
Proof. apply small_prime_ok. vm_compute. reflexivity. Qed.

Definition ctx_q647497758179_95 : mctx := {|
  mc_n := 4; mc_p := 29047611873442575647497758179;
  mc_M := [37463523; 104106558; 194974447; 1501]%uint63;
  mc_mi := 62863413%uint63;
  mc_r := 6019891478455252062790969501;
  mc_m1 := [20342464; 235928819; 23425164; 1130]%uint63 |}.
Lemma ctx_q647497758179_95_ok : mctx_ok ctx_q647497758179_95 = true.
Proof. vm_compute. reflexivity. Qed.

Lemma prime_q647497758179_95 : prime 29047611873442575647497758179.
Proof.
  refine (pocklington ctx_q647497758179_95 [(297159362677, 1, 2); (293, 1, 2); (2, 1, 2)] ctx_q647497758179_95_ok _ _).
  - repeat (apply Forall_cons; [cbn [fst]|]); [exact prime_q297159362677 | exact prime_q293 | exact prime_q2 | apply Forall_nil].
  - vm_compute. reflexivity.
Qed.

Definition ctx_q343609283189_109 : mctx := {|
  mc_n := 5; mc_p := 341948486974166000522343609283189;
  mc_M := [249574005; 134545778; 116045849; 17678322; 0]%uint63;
  mc_mi := 255685155%uint63;
  mc_r := 44786018935062809677981280863851;
  mc_m1 := [68053291; 190932882; 49339052; 2163192; 0]%uint63 |}.
Lemma ctx_q343609283189_109_ok : mctx_ok ctx_q343609283189_109 = true.
Proof. vm_compute. reflexivity. Qed.

Lemma prime_q343609283189_109 : prime 341948486974166000522343609283189.
Proof.
  refine (pocklington ctx_q343609283189_109 [(29047611873442575647497758179, 1, 2)] ctx_q343609283189_109_ok _ _).
  - repeat (apply Forall_cons; [cbn [fst]|]); [exact prime_q647497758179_95 | apply Forall_nil].
  - vm_compute. reflexivity.
Qed.

Lemma prime_q631 : prime 631.
Proof. apply small_prime_ok. vm_compute. reflexivity. Qed.

Lemma prime_q149 : prime 149.
Proof. apply small_prime_ok. vm_compute. reflexivity. Qed.

Lemma prime_q3 : prime 3.
Proof. apply small_prime_ok. vm_compute. reflexivity. Qed.

Definition ctx_k1n : mctx := {|
  mc_n := 10; mc_p := 115792089237316195423570985008687907852837564279074904382605163141518161494337;
  mc_M := [3555649; 220588237; 144718783; 231631604; 268352174; 268435455; 268435455; 268435455; 268435455; 15]%uint63;
  mc_mi := 92844351%uint63;
  mc_r := 97465322094280033064003907379841316354554608039711094024538688994487164632214;
  mc_m1 := [20332865; 170478817; 141728332; 39349936; 249274718; 268430250; 268435455; 268435455; 268435455; 15]%uint63 |}.
Lemma ctx_k1n_ok : mctx_ok ctx_k1n = true.
Proof. vm_compute. reflexivity. Qed.

Lemma prime_k1n : prime 115792089237316195423570985008687907852837564279074904382605163141518161494337.
Proof.
  refine (pocklington ctx_k1n [(341948486974166000522343609283189, 1, 2); (631, 1, 2); (149, 1, 2); (3, 1, 2); (2, 6, 5)] ctx_k1n_ok _ _).
  - repeat (apply Forall_cons; [cbn [fst]|]); [exact prime_q343609283189_109 | exact prime_q631 | exact prime_q149 | exact prime_q3 | exact prime_q2 | apply Forall_nil].
  - vm_compute. reflexivity.
Qed.

Lemma prime_q704251 : prime 704251.
Proof. apply small_prime_ok. vm_compute. reflexivity. Qed.

Lemma prime_q78283 : prime 78283.
Proof. apply small_prime_ok. vm_compute. reflexivity. Qed.

Definition ctx_q956964474543_56 : mctx := {|
  mc_n := 3; mc_p := 46076956964474543;
  mc_M := [204656303; 171650040; 0]%uint63;
  mc_mi := 182499249%uint63;
  mc_r := 11915207037771785;
  mc_m1 := [4861728; 6669747; 0]%uint63 |}.
Lemma ctx_q956964474543_56_ok : mctx_ok ctx_q956964474543_56 = true.
Proof. vm_compute. reflexivity. Qed.

Lemma prime_q956964474543_56 : prime 46076956964474543.
Proof.
  refine (pocklington ctx_q956964474543_56 [(704251, 1, 2); (78283, 1, 2)] ctx_q956964474543_56_ok _ _).
  - repeat (apply Forall_cons; [cbn [fst]|]); [exact prime_q704251 | exact prime_q78283 | apply Forall_nil].
  - vm_compute. reflexivity.
Qed.

Lemma prime_q197 : prime 197.
Proof. apply small_prime_ok. vm_compute. reflexivity. Qed.

Lemma prime_q173 : prime 173.
Proof. apply small_prime_ok. vm_compute. reflexivity. Qed.

Definition ctx_q66417393611 : mctx := {|
  mc_n := 2; mc_p := 66417393611;
  mc_M := [113835979; 247]%uint63;
  mc_mi := 174346781%uint63;
  mc_r := 20523648546;
  mc_m1 := [185834355; 115]%uint63 |}.
Lemma ctx_q66417393611_ok : mctx_ok ctx_q66417393611 = true.
Proof. vm_compute. reflexivity. Qed.

Lemma prime_q66417393611 : prime 66417393611.
Proof.
  refine (pocklington ctx_q66417393611 [(197, 1, 2); (173, 1, 2); (53, 1, 2)] ctx_q66417393611_ok _ _).
  - repeat (apply Forall_cons; [cbn [fst]|]); [exact prime_q197 | exact prime_q173 | exact prime_q53 | apply Forall_nil].
  - vm_compute. reflexivity.
Qed.

Definition ctx_q290956913871_44 : mctx := {|
  mc_n := 2; mc_p := 11290956913871;
  mc_M := [24763599; 42062]%uint63;
  mc_mi := 137254353%uint63;
  mc_r := 8760752281778;
  mc_m1 := [201240690; 4816]%uint63 |}.
Lemma ctx_q290956913871_44_ok : mctx_ok ctx_q290956913871_44 = true.
Proof. vm_compute. reflexivity. Qed.

Lemma prime_q290956913871_44 : prime 11290956913871.
Proof.
  refine (pocklington ctx_q290956913871_44 [(66417393611, 1, 2)] ctx_q290956913871_44_ok _ _).
  - repeat (apply Forall_cons; [cbn [fst]|]); [exact prime_q66417393611 | apply Forall_nil].
  - vm_compute. reflexivity.
Qed.

Definition ctx_q577272145303_150 : mctx := {|
  mc_n := 6; mc_p := 774023187263532362759620327192479577272145303;
  mc_M := [17749399; 234064980; 37195288; 23781391; 89765320; 555]%uint63;
  mc_mi := 65471961%uint63;
  mc_r := 285895945098446994609190043163995778541073848;
  mc_m1 := [185631207; 109697261; 77177093; 165972097; 47149711; 421]%uint63 |}.
Lemma ctx_q577272145303_150_ok : mctx_ok ctx_q577272145303_150 = true.
Proof. vm_compute. reflexivity. Qed.

Lemma prime_q577272145303_150 : prime 774023187263532362759620327192479577272145303.
Proof.
  refine (pocklington ctx_q577272145303_150 [(46076956964474543, 1, 2); (11290956913871, 1, 2)] ctx_q577272145303_150_ok _ _).
  - repeat (apply Forall_cons; [cbn [fst]|]); [exact prime_q956964474543_56 | exact prime_q290956913871_44 | apply Forall_nil].
  - vm_compute. reflexivity.
Qed.

Definition ctx_q453916927241_160 : mctx := {|
  mc_n := 6; mc_p := 835945042244614951780389953367877943453916927241;
  mc_M := [110433545; 192414375; 174029037; 182534109; 41346079; 599761]%uint63;
  mc_mi := 3602119%uint63;
  mc_r := 511036715278113942820157086750290257842987213660;
  mc_m1 := [82104256; 33858808; 118726657; 170902498; 997232; 257541]%uint63 |}.
Lemma ctx_q453916927241_160_ok : mctx_ok ctx_q453916927241_160 = true.
Proof. vm_compute. reflexivity. Qed.

Lemma prime_q453916927241_160 : prime 835945042244614951780389953367877943453916927241.
Proof.
  refine (pocklington ctx_q453916927241_160 [(774023187263532362759620327192479577272145303, 1, 2)] ctx_q453916927241_160_ok _ _).
  - repeat (apply Forall_cons; [cbn [fst]|]); [exact prime_q577272145303_150 | apply Forall_nil].
  - vm_compute. reflexivity.
Qed.

Definition ctx_r1p : mctx := {|
  mc_n := 10; mc_p := 115792089210356248762697446949407573530086143415290314195533631308867097853951;
  mc_M := [268435455; 268435455; 268435455; 4095; 0; 0; 16777216; 0; 268435455; 15]%uint63;
  mc_mi := 1%uint63;
  mc_r := 6901746343576687700413352987558608998254641115104330755028450260550400;
  mc_m1 := [251658239; 268435455; 268435455; 4095; 256; 0; 16777216; 1048576; 251658239; 15]%uint63 |}.
Lemma ctx_r1p_ok : mctx_ok ctx_r1p = true.
Proof. vm_compute. reflexivity. Qed.

Lemma prime_r1p : prime 115792089210356248762697446949407573530086143415290314195533631308867097853951.
Proof.
  refine (pocklington ctx_r1p [(835945042244614951780389953367877943453916927241, 1, 2)] ctx_r1p_ok _ _).
  - repeat (apply Forall_cons; [cbn [fst]|]); [exact prime_q453916927241_160 | apply Forall_nil].
  - vm_compute. reflexivity.
Qed.

Lemma prime_q155317 : prime 155317.
Proof. apply small_prime_ok. vm_compute. reflexivity. Qed.

Definition ctx_q191039911 : mctx := {|
  mc_n := 2; mc_p := 191039911;
  mc_M := [191039911; 0]%uint63;
  mc_mi := 264958441%uint63;
  mc_r := 33053989;
  mc_m1 := [160511389; 0]%uint63 |}.
Lemma ctx_q191039911_ok : mctx_ok ctx_q191039911 = true.
Proof. vm_compute. reflexivity. Qed.

Lemma prime_q191039911 : prime 191039911.
Proof.
  refine (pocklington ctx_q191039911 [(155317, 1, 2)] ctx_q191039911_ok _ _).
  - repeat (apply Forall_cons; [cbn [fst]|]); [exact prime_q155317 | apply Forall_nil].
  - vm_compute. reflexivity.
Qed.

Lemma prime_q127 : prime 127.
Proof. apply small_prime_ok. vm_compute. reflexivity. Qed.

Definition ctx_q935158385979_58 : mctx := {|
  mc_n := 3; mc_p := 208150935158385979;
  mc_M := [96988475; 238551747; 2]%uint63;
  mc_mi := 4955149%uint63;
  mc_r := 21755370750313557;
  mc_m1 := [111646650; 151778091; 1]%uint63 |}.
Lemma ctx_q935158385979_58_ok : mctx_ok ctx_q935158385979_58 = true.
Proof. vm_compute. reflexivity. Qed.

Lemma prime_q935158385979_58 : prime 208150935158385979.
Proof.
  refine (pocklington ctx_q935158385979_58 [(191039911, 1, 2); (127, 1, 2)] ctx_q935158385979_58_ok _ _).
  - repeat (apply Forall_cons; [cbn [fst]|]); [exact prime_q191039911 | exact prime_q127 | apply Forall_nil].
  - vm_compute. reflexivity.
Qed.

Definition ctx_q278416773953_92 : mctx := {|
  mc_n := 4; mc_p := 2624747550333869278416773953;
  mc_M := [187343681; 164881975; 186902992; 135]%uint63;
  mc_mi := 23335743%uint63;
  mc_r := 1368194010701632078500876493;
  mc_m1 := [12503713; 185951450; 117133881; 122]%uint63 |}.
Lemma ctx_q278416773953_92_ok : mctx_ok ctx_q278416773953_92 = true.
Proof. vm_compute. reflexivity. Qed.

Lemma prime_q278416773953_92 : prime 2624747550333869278416773953.
Proof.
  refine (pocklington ctx_q278416773953_92 [(208150935158385979, 1, 2)] ctx_q278416773953_92_ok _ _).
  - repeat (apply Forall_cons; [cbn [fst]|]); [exact prime_q935158385979_58 | apply Forall_nil].
  - vm_compute. reflexivity.
Qed.

Lemma prime_q3969899 : prime 3969899.
Proof. apply small_prime_ok. vm_compute. reflexivity. Qed.

Definition ctx_q2328039319_40 : mctx := {|
  mc_n := 2; mc_p := 1002328039319;
  mc_M := [258482071; 3733]%uint63;
  mc_mi := 178499545%uint63;
  mc_r := 759374044006;
  mc_m1 := [90124661; 2872]%uint63 |}.
Lemma ctx_q2328039319_40_ok : mctx_ok ctx_q2328039319_40 = true.
Proof. vm_compute. reflexivity. Qed.

Lemma prime_q2328039319_40 : prime 1002328039319.
Proof.
  refine (pocklington ctx_q2328039319_40 [(3969899, 1, 2)] ctx_q2328039319_40_ok _ _).
  - repeat (apply Forall_cons; [cbn [fst]|]); [exact prime_q3969899 | apply Forall_nil].
  - vm_compute. reflexivity.
Qed.

Definition ctx_r1n : mctx := {|
  mc_n := 10; mc_p := 115792089210356248762697446949407573529996955224135760342422259061068512044369;
  mc_M := [207824209; 194817071; 127829235; 262855281; 268418278; 268435455; 16777215; 0; 268435455; 15]%uint63;
  mc_mi := 234929231%uint63;
  mc_r := 31784414902932020803566699927781346176320253474371992036415315179848356486735;
  mc_m1 := [224601425; 191028868; 190336950; 19186368; 117074574; 268434382; 16777215; 1048576; 251658239; 15]%uint63 |}.
Lemma ctx_r1n_ok : mctx_ok ctx_r1n = true.
Proof. vm_compute. reflexivity. Qed.

Lemma prime_r1n : prime 115792089210356248762697446949407573529996955224135760342422259061068512044369.
Proof.
  refine (pocklington ctx_r1n [(2624747550333869278416773953, 1, 2); (1002328039319, 1, 2)] ctx_r1n_ok _ _).
  - repeat (apply Forall_cons; [cbn [fst]|]); [exact prime_q278416773953_92 | exact prime_q2328039319_40 | apply Forall_nil].
  - vm_compute. reflexivity.
Qed.

Lemma prime_q363761 : prime 363761.
Proof. apply small_prime_ok. vm_compute. reflexivity. Qed.

Lemma prime_q823 : prime 823.
Proof. apply small_prime_ok. vm_compute. reflexivity. Qed.

Definition ctx_q264379806847_53 : mctx := {|
  mc_n := 3; mc_p := 4773264379806847;
  mc_M := [130483327; 17781795; 0]%uint63;
  mc_mi := 33244289%uint63;
  mc_r := 1223556641401325;
  mc_m1 := [132495856; 12860685; 0]%uint63 |}.
Lemma ctx_q264379806847_53_ok : mctx_ok ctx_q264379806847_53 = true.
Proof. vm_compute. reflexivity. Qed.

Lemma prime_q264379806847_53 : prime 4773264379806847.
Proof.
  refine (pocklington ctx_q264379806847_53 [(363761, 1, 2); (823, 1, 2)] ctx_q264379806847_53_ok _ _).
  - repeat (apply Forall_cons; [cbn [fst]|]); [exact prime_q363761 | exact prime_q823 | apply Forall_nil].
  - vm_compute. reflexivity.
Qed.

Lemma prime_q1213 : prime 1213.
Proof. apply small_prime_ok. vm_compute. reflexivity. Qed.

Definition ctx_q782124120027_106 : mctx := {|
  mc_n := 5; mc_p := 66013261729388519804782124120027;
  mc_M := [87996379; 182715201; 172368092; 3412805; 0]%uint63;
  mc_mi := 177312685%uint63;
  mc_r := 57620739805653723248808086171061;
  mc_m1 := [258094594; 50786704; 204655461; 1077816; 0]%uint63 |}.
Lemma ctx_q782124120027_106_ok : mctx_ok ctx_q782124120027_106 = true.
Proof. vm_compute. reflexivity. Qed.

Lemma prime_q782124120027_106 : prime 66013261729388519804782124120027.
Proof.
  refine (pocklington ctx_q782124120027_106 [(4773264379806847, 1, 2); (1213, 1, 2)] ctx_q782124120027_106_ok _ _).
  - repeat (apply Forall_cons; [cbn [fst]|]); [exact prime_q264379806847_53 | exact prime_q1213 | apply Forall_nil].
  - vm_compute. reflexivity.
Qed.

Lemma prime_q97 : prime 97.
Proof. apply small_prime_ok. vm_compute. reflexivity. Qed.

Lemma prime_q79 : prime 79.
Proof. apply small_prime_ok. vm_compute. reflexivity. Qed.

Definition ctx_q8214737 : mctx := {|
  mc_n := 2; mc_p := 8214737;
  mc_M := [8214737; 0]%uint63;
  mc_mi := 127795151%uint63;
  mc_r := 2386512;
  mc_m1 := [6150000; 0]%uint63 |}.
Lemma ctx_q8214737_ok : mctx_ok ctx_q8214737 = true.
Proof. vm_compute. reflexivity. Qed.

Lemma prime_q8214737 : prime 8214737.
Proof.
  refine (pocklington ctx_q8214737 [(97, 1, 2); (79, 1, 2)] ctx_q8214737_ok _ _).
  - repeat (apply Forall_cons; [cbn [fst]|]); [exact prime_q97 | exact prime_q79 | apply Forall_nil].
  - vm_compute. reflexivity.
Qed.

Lemma prime_q367 : prime 367.
Proof. apply small_prime_ok. vm_compute. reflexivity. Qed.

Definition ctx_q514796639753_49 : mctx := {|
  mc_n := 3; mc_p := 417514796639753;
  mc_M := [220489225; 1555363; 0]%uint63;
  mc_mi := 145946567%uint63;
  mc_r := 32741937775135;
  mc_m1 := [163774434; 657356; 0]%uint63 |}.
Lemma ctx_q514796639753_49_ok : mctx_ok ctx_q514796639753_49 = true.
Proof. vm_compute. reflexivity. Qed.

Lemma prime_q514796639753_49 : prime 417514796639753.
Proof.
  refine (pocklington ctx_q514796639753_49 [(8214737, 1, 2); (367, 1, 2)] ctx_q514796639753_49_ok _ _).
  - repeat (apply Forall_cons; [cbn [fst]|]); [exact prime_q8214737 | exact prime_q367 | apply Forall_nil].
  - vm_compute. reflexivity.
Qed.

Definition ctx_sm2p : mctx := {|
  mc_n := 10; mc_p := 115792089210356248756420345214020892766250353991924191454421193933289684991999;
  mc_M := [268435455; 268435455; 255; 268431360; 268435455; 268435455; 268435455; 268435455; 268435454; 15]%uint63;
  mc_mi := 1%uint63;
  mc_r := 34508731719490376541087733346099286169879747583395719397852716204030208;
  mc_m1 := [251658239; 268435455; 255; 268431376; 268435199; 268435455; 268435455; 268435455; 251658238; 15]%uint63 |}.
Lemma ctx_sm2p_ok : mctx_ok ctx_sm2p = true.
Proof. vm_compute. reflexivity. Qed.

Lemma prime_sm2p : prime 115792089210356248756420345214020892766250353991924191454421193933289684991999.
Proof.
  refine (pocklington ctx_sm2p [(66013261729388519804782124120027, 1, 2); (417514796639753, 1, 2)] ctx_sm2p_ok _ _).
  - repeat (apply Forall_cons; [cbn [fst]|]); [exact prime_q782124120027_106 | exact prime_q514796639753_49 | apply Forall_nil].
  - vm_compute. reflexivity.
Qed.

Lemma prime_q5801 : prime 5801.
Proof. apply small_prime_ok. vm_compute. reflexivity. Qed.

Definition ctx_q9061163 : mctx := {|
  mc_n := 2; mc_p := 9061163;
  mc_M := [9061163; 0]%uint63;
  mc_mi := 120429693%uint63;
  mc_r := 3275275;
  mc_m1 := [2711694; 0]%uint63 |}.
Lemma ctx_q9061163_ok : mctx_ok ctx_q9061163 = true.
Proof. vm_compute. reflexivity. Qed.

Lemma prime_q9061163 : prime 9061163.
Proof.
  refine (pocklington ctx_q9061163 [(5801, 1, 2)] ctx_q9061163_ok _ _).
  - repeat (apply Forall_cons; [cbn [fst]|]); [exact prime_q5801 | apply Forall_nil].
  - vm_compute. reflexivity.
Qed.

Definition ctx_q636460199499_43 : mctx := {|
  mc_n := 2; mc_p := 5636460199499;
  mc_M := [120929867; 20997]%uint63;
  mc_mi := 131785885%uint63;
  mc_r := 116267429170;
  mc_m1 := [168558491; 16948]%uint63 |}.
Lemma ctx_q636460199499_43_ok : mctx_ok ctx_q636460199499_43 = true.
Proof. vm_compute. reflexivity. Qed.

Lemma prime_q636460199499_43 : prime 5636460199499.
Proof.
  refine (pocklington ctx_q636460199499_43 [(9061163, 1, 2)] ctx_q636460199499_43_ok _ _).
  - repeat (apply Forall_cons; [cbn [fst]|]); [exact prime_q9061163 | apply Forall_nil].
  - vm_compute. reflexivity.
Qed.

Definition ctx_q456283590983_47 : mctx := {|
  mc_n := 2; mc_p := 101456283590983;
  mc_M := [29253959; 377954]%uint63;
  mc_mi := 40044425%uint63;
  mc_r := 48196719750024;
  mc_m1 := [130034737; 289915]%uint63 |}.
Lemma ctx_q456283590983_47_ok : mctx_ok ctx_q456283590983_47 = true.
Proof. vm_compute. reflexivity. Qed.

Lemma prime_q456283590983_47 : prime 101456283590983.
Proof.
  refine (pocklington ctx_q456283590983_47 [(5636460199499, 1, 2)] ctx_q456283590983_47_ok _ _).
  - repeat (apply Forall_cons; [cbn [fst]|]); [exact prime_q636460199499_43 | apply Forall_nil].
  - vm_compute. reflexivity.
Qed.

Lemma prime_q84163 : prime 84163.
Proof. apply small_prime_ok. vm_compute. reflexivity. Qed.

Definition ctx_q2566129871 : mctx := {|
  mc_n := 2; mc_p := 2566129871;
  mc_M := [150210767; 9]%uint63;
  mc_mi := 243532241%uint63;
  mc_r := 2239087161;
  mc_m1 := [83729291; 9]%uint63 |}.
Lemma ctx_q2566129871_ok : mctx_ok ctx_q2566129871 = true.
Proof. vm_compute. reflexivity. Qed.

Lemma prime_q2566129871 : prime 2566129871.
Proof.
  refine (pocklington ctx_q2566129871 [(84163, 1, 2)] ctx_q2566129871_ok _ _).
  - repeat (apply Forall_cons; [cbn [fst]|]); [exact prime_q84163 | apply Forall_nil].
  - vm_compute. reflexivity.
Qed.

Definition ctx_q791662753637_134 : mctx := {|
  mc_n := 6; mc_p := 18120927127286907576013935251791662753637;
  mc_M := [78587749; 142187542; 139318544; 165745494; 3489963; 0]%uint63;
  mc_mi := 77024659%uint63;
  mc_r := 4542452521141210789042378946260970967427;
  mc_m1 := [16967113; 172327934; 255661780; 167293359; 2527668; 0]%uint63 |}.
Lemma ctx_q791662753637_134_ok : mctx_ok ctx_q791662753637_134 = true.
Proof. vm_compute. reflexivity. Qed.

Lemma prime_q791662753637_134 : prime 18120927127286907576013935251791662753637.
Proof.
  refine (pocklington ctx_q791662753637_134 [(101456283590983, 1, 2); (2566129871, 1, 2)] ctx_q791662753637_134_ok _ _).
  - repeat (apply Forall_cons; [cbn [fst]|]); [exact prime_q456283590983_47 | exact prime_q2566129871 | apply Forall_nil].
  - vm_compute. reflexivity.
Qed.

Definition ctx_q362477724521_197 : mctx := {|
  mc_n := 8; mc_p := 125197554539772723432468576818475380947471091418362477724521;
  mc_M := [72008553; 129089562; 213300543; 226507763; 45689914; 151329816; 66188149; 1]%uint63;
  mc_mi := 92406567%uint63;
  mc_r := 72229443255184246647275297913420221381637984636435707085882;
  mc_m1 := [101610700; 84256219; 55142637; 38707779; 96107991; 162573304; 208723643; 0]%uint63 |}.
Lemma ctx_q362477724521_197_ok : mctx_ok ctx_q362477724521_197 = true.
Proof. vm_compute. reflexivity. Qed.

Lemma prime_q362477724521_197 : prime 125197554539772723432468576818475380947471091418362477724521.
Proof.
  refine (pocklington ctx_q362477724521_197 [(18120927127286907576013935251791662753637, 1, 2)] ctx_q362477724521_197_ok _ _).
  - repeat (apply Forall_cons; [cbn [fst]|]); [exact prime_q791662753637_134 | apply Forall_nil].
  - vm_compute. reflexivity.
Qed.

Definition ctx_sm2n : mctx := {|
  mc_n := 10; mc_p := 115792089210356248756420345214020892766061623724957744567843809356293439045923;
  mc_M := [164970787; 197083283; 101002067; 234271260; 268399107; 268435455; 268435455; 268435455; 268435454; 15]%uint63;
  mc_mi := 37030261%uint63;
  mc_r := 114374984238849848092116304693121557869538192168400679471081336608918925842251;
  mc_m1 := [215302435; 257725605; 163651420; 173475025; 64937253; 268433184; 268435455; 268435455; 251658238; 15]%uint63 |}.
Lemma ctx_sm2n_ok : mctx_ok ctx_sm2n = true.
Proof. vm_compute. reflexivity. Qed.

Lemma prime_sm2n : prime 115792089210356248756420345214020892766061623724957744567843809356293439045923.
Proof.
  refine (pocklington ctx_sm2n [(125197554539772723432468576818475380947471091418362477724521, 1, 2)] ctx_sm2n_ok _ _).
  - repeat (apply Forall_cons; [cbn [fst]|]); [exact prime_q362477724521_197 | apply Forall_nil].
  - vm_compute. reflexivity.
Qed.

Lemma prime_q47 : prime 47.
Proof. apply small_prime_ok. vm_compute. reflexivity. Qed.

Lemma prime_q19 : prime 19.
Proof. apply small_prime_ok. vm_compute. reflexivity. Qed.

Definition ctx_q519569386763_51 : mctx := {|
  mc_n := 3; mc_p := 1919519569386763;
  mc_M := [168992011; 7150767; 0]%uint63;
  mc_mi := 54573405%uint63;
  mc_r := 1346538845421015;
  mc_m1 := [34375516; 172471; 0]%uint63 |}.
Lemma ctx_q519569386763_51_ok : mctx_ok ctx_q519569386763_51 = true.
Proof. vm_compute. reflexivity. Qed.

Lemma prime_q519569386763_51 : prime 1919519569386763.
Proof.
  refine (pocklington ctx_q519569386763_51 [(127, 1, 2); (47, 2, 2); (19, 1, 2); (7, 1, 2); (3, 1, 2)] ctx_q519569386763_51_ok _ _).
  - repeat (apply Forall_cons; [cbn [fst]|]); [exact prime_q127 | exact prime_q47 | exact prime_q19 | exact prime_q7 | exact prime_q3 | apply Forall_nil].
  - vm_compute. reflexivity.
Qed.

Lemma prime_q5 : prime 5.
Proof. apply small_prime_ok. vm_compute. reflexivity. Qed.

Definition ctx_q846543864801_116 : mctx := {|
  mc_n := 5; mc_p := 75445702479781427272750846543864801;
  mc_M := [156967905; 127105139; 129504673; 142355015; 14]%uint63;
  mc_mi := 145989599%uint63;
  mc_r := 70814309901991651607026259722744740;
  mc_m1 := [124726712; 2413836; 231827960; 123510363; 1]%uint63 |}.
Lemma ctx_q846543864801_116_ok : mctx_ok ctx_q846543864801_116 = true.
Proof. vm_compute. reflexivity. Qed.

Lemma prime_q846543864801_116 : prime 75445702479781427272750846543864801.
Proof.
  refine (pocklington ctx_q846543864801_116 [(1919519569386763, 1, 2); (5, 2, 2); (3, 2, 2)] ctx_q846543864801_116_ok _ _).
  - repeat (apply Forall_cons; [cbn [fst]|]); [exact prime_q519569386763_51 | exact prime_q5 | exact prime_q3 | apply Forall_nil].
  - vm_compute. reflexivity.
Qed.

Lemma prime_q353 : prime 353.
Proof. apply small_prime_ok. vm_compute. reflexivity. Qed.

Definition ctx_q160754340907_236 : mctx := {|
  mc_n := 9; mc_p := 74058212732561358302231226437062788676166966415465897661863160754340907;
  mc_M := [263324715; 260065432; 108642733; 215585092; 193351102; 204262074; 83693362; 260860681; 2746]%uint63;
  mc_mi := 214787453%uint63;
  mc_r := 59246570186049086641784981149650230940933573132372718129490528603472726;
  mc_m1 := [131662355; 264250444; 54321366; 107792546; 96675551; 102131037; 176064409; 130430340; 1373]%uint63 |}.
Lemma ctx_q160754340907_236_ok : mctx_ok ctx_q160754340907_236 = true.
Proof. vm_compute. reflexivity. Qed.

Lemma prime_q160754340907_236 : prime 74058212732561358302231226437062788676166966415465897661863160754340907.
Proof.
  refine (pocklington ctx_q160754340907_236 [(75445702479781427272750846543864801, 1, 2); (353, 1, 2)] ctx_q160754340907_236_ok _ _).
  - repeat (apply Forall_cons; [cbn [fst]|]); [exact prime_q846543864801_116 | exact prime_q353 | apply Forall_nil].
  - vm_compute. reflexivity.
Qed.

Definition ctx_p25519 : mctx := {|
  mc_n := 10; mc_p := 57896044618658097711785492504343953926634992332820282019728792003956564819949;
  mc_M := [268435437; 268435455; 268435455; 268435455; 268435455; 268435455; 268435455; 268435455; 268435455; 7]%uint63;
  mc_mi := 141281819%uint63;
  mc_r := 34160270098336873682293492660066346681281190387821322197354097882640940062601;
  mc_m1 := [167772141; 268435453; 268435455; 268435455; 268435455; 268435455; 268435455; 268435455; 268435455; 7]%uint63 |}.
Lemma ctx_p25519_ok : mctx_ok ctx_p25519 = true.
Proof. vm_compute. reflexivity. Qed.

Lemma prime_p25519 : prime 57896044618658097711785492504343953926634992332820282019728792003956564819949.
Proof.
  refine (pocklington ctx_p25519 [(74058212732561358302231226437062788676166966415465897661863160754340907, 1, 2)] ctx_p25519_ok _ _).
  - repeat (apply Forall_cons; [cbn [fst]|]); [exact prime_q160754340907_236 | apply Forall_nil].
  - vm_compute. reflexivity.
Qed.

Lemma prime_q1224481 : prime 1224481.
Proof. apply small_prime_ok. vm_compute. reflexivity. Qed.

Lemma prime_q23 : prime 23.
Proof. apply small_prime_ok. vm_compute. reflexivity. Qed.

Definition ctx_q559732178653_51 : mctx := {|
  mc_n := 3; mc_p := 1257559732178653;
  mc_M := [18796253; 4684775; 0]%uint63;
  mc_mi := 18253451%uint63;
  mc_r := 1150322388817244;
  mc_m1 := [149966619; 276937; 0]%uint63 |}.
Lemma ctx_q559732178653_51_ok : mctx_ok ctx_q559732178653_51 = true.
Proof. vm_compute. reflexivity. Qed.

Lemma prime_q559732178653_51 : prime 1257559732178653.
Proof.
  refine (pocklington ctx_q559732178653_51 [(1224481, 1, 2); (23, 1, 2); (7, 1, 2)] ctx_q559732178653_51_ok _ _).
  - repeat (apply Forall_cons; [cbn [fst]|]); [exact prime_q1224481 | exact prime_q23 | exact prime_q7 | apply Forall_nil].
  - vm_compute. reflexivity.
Qed.

Definition ctx_q615661930479_62 : mctx := {|
  mc_n := 3; mc_p := 4434155615661930479;
  mc_M := [240465903; 143954080; 61]%uint63;
  mc_mi := 243738865%uint63;
  mc_r := 2537466580818197680;
  mc_m1 := [141209736; 103881598; 33]%uint63 |}.
Lemma ctx_q615661930479_62_ok : mctx_ok ctx_q615661930479_62 = true.
Proof. vm_compute. reflexivity. Qed.

Lemma prime_q615661930479_62 : prime 4434155615661930479.
Proof.
  refine (pocklington ctx_q615661930479_62 [(1257559732178653, 1, 2)] ctx_q615661930479_62_ok _ _).
  - repeat (apply Forall_cons; [cbn [fst]|]); [exact prime_q559732178653_51 | apply Forall_nil].
  - vm_compute. reflexivity.
Qed.

Definition ctx_q949258510691_88 : mctx := {|
  mc_n := 4; mc_p := 172054593956031949258510691;
  mc_M := [165564771; 75561119; 240253498; 8]%uint63;
  mc_mi := 19548085%uint63;
  mc_r := 78245356964298470867972324;
  mc_m1 := [264829814; 131216264; 246690248; 2]%uint63 |}.
Lemma ctx_q949258510691_88_ok : mctx_ok ctx_q949258510691_88 = true.
Proof. vm_compute. reflexivity. Qed.

Lemma prime_q949258510691_88 : prime 172054593956031949258510691.
Proof.
  refine (pocklington ctx_q949258510691_88 [(4434155615661930479, 1, 2)] ctx_q949258510691_88_ok _ _).
  - repeat (apply Forall_cons; [cbn [fst]|]); [exact prime_q615661930479_62 | apply Forall_nil].
  - vm_compute. reflexivity.
Qed.

Definition ctx_q367130476339_134 : mctx := {|
  mc_n := 6; mc_p := 19757330305831588566944191468367130476339;
  mc_M := [50937651; 185277308; 252336669; 108908303; 3805123; 0]%uint63;
  mc_mi := 37170181%uint63;
  mc_r := 3560184378718660186208227777490390801148;
  mc_m1 := [238488391; 6000300; 22508592; 101498400; 738242; 0]%uint63 |}.
Lemma ctx_q367130476339_134_ok : mctx_ok ctx_q367130476339_134 = true.
Proof. vm_compute. reflexivity. Qed.

Lemma prime_q367130476339_134 : prime 19757330305831588566944191468367130476339.
Proof.
  refine (pocklington ctx_q367130476339_134 [(172054593956031949258510691, 1, 2)] ctx_q367130476339_134_ok _ _).
  - repeat (apply Forall_cons; [cbn [fst]|]); [exact prime_q949258510691_88 | apply Forall_nil].
  - vm_compute. reflexivity.
Qed.

Definition ctx_q139826668747_138 : mctx := {|
  mc_n := 6; mc_p := 276602624281642239937218680557139826668747;
  mc_M := [176256203; 177963210; 43052447; 182538975; 53271727; 0]%uint63;
  mc_mi := 10333981%uint63;
  mc_r := 62914584240950837651204919551020571827912;
  mc_m1 := [68646090; 229199639; 178252543; 58550159; 27374106; 0]%uint63 |}.
Lemma ctx_q139826668747_138_ok : mctx_ok ctx_q139826668747_138 = true.
Proof. vm_compute. reflexivity. Qed.

Lemma prime_q139826668747_138 : prime 276602624281642239937218680557139826668747.
Proof.
  refine (pocklington ctx_q139826668747_138 [(19757330305831588566944191468367130476339, 1, 2)] ctx_q139826668747_138_ok _ _).
  - repeat (apply Forall_cons; [cbn [fst]|]); [exact prime_q367130476339_134 | apply Forall_nil].
  - vm_compute. reflexivity.
Qed.

Definition ctx_l25519 : mctx := {|
  mc_n := 10; mc_p := 7237005577332262213973186563042994240857116359379907606001950938285454250989;
  mc_M := [217437165; 19280293; 127719000; 262007343; 5342; 0; 0; 0; 0; 1]%uint63;
  mc_mi := 39091739%uint63;
  mc_r := 2207984526337129215256050501153489921039357049806569492468360113881197444571;
  mc_m1 := [0; 217437165; 19280293; 127719000; 262007343; 5342; 0; 0; 0; 0]%uint63 |}.
Lemma ctx_l25519_ok : mctx_ok ctx_l25519 = true.
Proof. vm_compute. reflexivity. Qed.

Lemma prime_l25519 : prime 7237005577332262213973186563042994240857116359379907606001950938285454250989.
Proof.
  refine (pocklington ctx_l25519 [(276602624281642239937218680557139826668747, 1, 2)] ctx_l25519_ok _ _).
  - repeat (apply Forall_cons; [cbn [fst]|]); [exact prime_q139826668747_138 | apply Forall_nil].
  - vm_compute. reflexivity.
Qed.

Lemma prime_q413527 : prime 413527.
Proof. apply small_prime_ok. vm_compute. reflexivity. Qed.

Lemma prime_q509 : prime 509.
Proof. apply small_prime_ok. vm_compute. reflexivity. Qed.

Definition ctx_q86459374267_49 : mctx := {|
  mc_n := 3; mc_p := 325086459374267;
  mc_M := [116304571; 1211041; 0]%uint63;
  mc_mi := 109442445%uint63;
  mc_r := 232769353005848;
  mc_m1 := [243787351; 926016; 0]%uint63 |}.
Lemma ctx_q86459374267_49_ok : mctx_ok ctx_q86459374267_49 = true.
Proof. vm_compute. reflexivity. Qed.

Lemma prime_q86459374267_49 : prime 325086459374267.
Proof.
  refine (pocklington ctx_q86459374267_49 [(413527, 1, 2); (509, 1, 2)] ctx_q86459374267_49_ok _ _).
  - repeat (apply Forall_cons; [cbn [fst]|]); [exact prime_q413527 | exact prime_q509 | apply Forall_nil].
  - vm_compute. reflexivity.
Qed.

Lemma prime_q977 : prime 977.
Proof. apply small_prime_ok. vm_compute. reflexivity. Qed.

Definition ctx_q6942563 : mctx := {|
  mc_n := 2; mc_p := 6942563;
  mc_M := [6942563; 0]%uint63;
  mc_mi := 16840117%uint63;
  mc_r := 829520;
  mc_m1 := [1630580; 0]%uint63 |}.
Lemma ctx_q6942563_ok : mctx_ok ctx_q6942563 = true.
Proof. vm_compute. reflexivity. Qed.

Lemma prime_q6942563 : prime 6942563.
Proof.
  refine (pocklington ctx_q6942563 [(977, 1, 2); (19, 1, 2)] ctx_q6942563_ok _ _).
  - repeat (apply Forall_cons; [cbn [fst]|]); [exact prime_q977 | exact prime_q19 | apply Forall_nil].
  - vm_compute. reflexivity.
Qed.

Definition ctx_q41655379 : mctx := {|
  mc_n := 2; mc_p := 41655379;
  mc_M := [41655379; 0]%uint63;
  mc_mi := 38205477%uint63;
  mc_r := 39747801;
  mc_m1 := [23610963; 0]%uint63 |}.
Lemma ctx_q41655379_ok : mctx_ok ctx_q41655379 = true.
Proof. vm_compute. reflexivity. Qed.

Lemma prime_q41655379 : prime 41655379.
Proof.
  refine (pocklington ctx_q41655379 [(6942563, 1, 2)] ctx_q41655379_ok _ _).
  - repeat (apply Forall_cons; [cbn [fst]|]); [exact prime_q6942563 | apply Forall_nil].
  - vm_compute. reflexivity.
Qed.

Definition ctx_q22160661629 : mctx := {|
  mc_n := 2; mc_p := 22160661629;
  mc_M := [148954237; 82]%uint63;
  mc_mi := 246645547%uint63;
  mc_r := 21685509148;
  mc_m1 := [161591120; 49]%uint63 |}.
Lemma ctx_q22160661629_ok : mctx_ok ctx_q22160661629 = true.
Proof. vm_compute. reflexivity. Qed.

Lemma prime_q22160661629 : prime 22160661629.
Proof.
  refine (pocklington ctx_q22160661629 [(41655379, 1, 2)] ctx_q22160661629_ok _ _).
  - repeat (apply Forall_cons; [cbn [fst]|]); [exact prime_q41655379 | apply Forall_nil].
  - vm_compute. reflexivity.
Qed.

Definition ctx_q28797519453_143 : mctx := {|
  mc_n := 6; mc_p := 8999194758858563409123804352480028797519453;
  mc_M := [148194909; 120737577; 258475722; 39148019; 122569130; 6]%uint63;
  mc_mi := 240796171%uint63;
  mc_r := 5070427974073723297653196430270238499374506;
  mc_m1 := [215239410; 97039274; 9800145; 257027875; 131646166; 0]%uint63 |}.
Lemma ctx_q28797519453_143_ok : mctx_ok ctx_q28797519453_143 = true.
Proof. vm_compute. reflexivity. Qed.

Lemma prime_q28797519453_143 : prime 8999194758858563409123804352480028797519453.
Proof.
  refine (pocklington ctx_q28797519453_143 [(325086459374267, 1, 2); (22160661629, 1, 2)] ctx_q28797519453_143_ok _ _).
  - repeat (apply Forall_cons; [cbn [fst]|]); [exact prime_q86459374267_49 | exact prime_q22160661629 | apply Forall_nil].
  - vm_compute. reflexivity.
Qed.

Definition ctx_pallasp : mctx := {|
  mc_n := 10; mc_p := 28948022309329048855892746252171976963363056481941560715954676764349967630337;
  mc_M := [1; 47386320; 217652121; 160415892; 8774; 0; 0; 0; 0; 4]%uint63;
  mc_mi := 268435455%uint63;
  mc_r := 10017290461883634641096605453194857270955683872277392595359881001593228563028;
  mc_m1 := [67108864; 0; 78955444; 54413030; 174321701; 2193; 0; 0; 0; 0]%uint63 |}.
Lemma ctx_pallasp_ok : mctx_ok ctx_pallasp = true.
Proof. vm_compute. reflexivity. Qed.

Lemma prime_pallasp : prime 28948022309329048855892746252171976963363056481941560715954676764349967630337.
Proof.
  refine (pocklington ctx_pallasp [(8999194758858563409123804352480028797519453, 1, 2)] ctx_pallasp_ok _ _).
  - repeat (apply Forall_cons; [cbn [fst]|]); [exact prime_q28797519453_143 | apply Forall_nil].
  - vm_compute. reflexivity.
Qed.

Lemma prime_q12149 : prime 12149.
Proof. apply small_prime_ok. vm_compute. reflexivity. Qed.

Lemma prime_q757 : prime 757.
Proof. apply small_prime_ok. vm_compute. reflexivity. Qed.

Definition ctx_q239247429827_43 : mctx := {|
  mc_n := 2; mc_p := 5239247429827;
  mc_M := [192635075; 19517]%uint63;
  mc_mi := 210350101%uint63;
  mc_r := 2182724383572;
  mc_m1 := [44870830; 11232]%uint63 |}.
Lemma ctx_q239247429827_43_ok : mctx_ok ctx_q239247429827_43 = true.
Proof. vm_compute. reflexivity. Qed.

Lemma prime_q239247429827_43 : prime 5239247429827.
Proof.
  refine (pocklington ctx_q239247429827_43 [(12149, 1, 2); (757, 1, 2)] ctx_q239247429827_43_ok _ _).
  - repeat (apply Forall_cons; [cbn [fst]|]); [exact prime_q12149 | exact prime_q757 | apply Forall_nil].
  - vm_compute. reflexivity.
Qed.

Lemma prime_q6091 : prime 6091.
Proof. apply small_prime_ok. vm_compute. reflexivity. Qed.

Definition ctx_q5701177 : mctx := {|
  mc_n := 2; mc_p := 5701177;
  mc_M := [5701177; 0]%uint63;
  mc_mi := 42364919%uint63;
  mc_r := 15830;
  mc_m1 := [1254403; 0]%uint63 |}.
Lemma ctx_q5701177_ok : mctx_ok ctx_q5701177 = true.
Proof. vm_compute. reflexivity. Qed.

Lemma prime_q5701177 : prime 5701177.
Proof.
  refine (pocklington ctx_q5701177 [(6091, 1, 2)] ctx_q5701177_ok _ _).
  - repeat (apply Forall_cons; [cbn [fst]|]); [exact prime_q6091 | apply Forall_nil].
  - vm_compute. reflexivity.
Qed.

Definition ctx_q399082391 : mctx := {|
  mc_n := 2; mc_p := 399082391;
  mc_M := [130646935; 1]%uint63;
  mc_mi := 106353625%uint63;
  mc_r := 267669894;
  mc_m1 := [141904354; 0]%uint63 |}.
Lemma ctx_q399082391_ok : mctx_ok ctx_q399082391 = true.
Proof. vm_compute. reflexivity. Qed.

Lemma prime_q399082391 : prime 399082391.
Proof.
  refine (pocklington ctx_q399082391 [(5701177, 1, 2)] ctx_q399082391_ok _ _).
  - repeat (apply Forall_cons; [cbn [fst]|]); [exact prime_q5701177 | apply Forall_nil].
  - vm_compute. reflexivity.
Qed.

Definition ctx_q897599072717_114 : mctx := {|
  mc_n := 5; mc_p := 10427374428728808478656897599072717;
  mc_M := [89057741; 96157757; 256283262; 2211710; 2]%uint63;
  mc_mi := 185586939%uint63;
  mc_r := 2455934272673334191772279524381188;
  mc_m1 := [161073049; 11689869; 203830302; 121262882; 0]%uint63 |}.
Lemma ctx_q897599072717_114_ok : mctx_ok ctx_q897599072717_114 = true.
Proof. vm_compute. reflexivity. Qed.

Lemma prime_q897599072717_114 : prime 10427374428728808478656897599072717.
Proof.
  refine (pocklington ctx_q897599072717_114 [(5239247429827, 1, 2); (399082391, 1, 2)] ctx_q897599072717_114_ok _ _).
  - repeat (apply Forall_cons; [cbn [fst]|]); [exact prime_q239247429827_43 | exact prime_q399082391 | apply Forall_nil].
  - vm_compute. reflexivity.
Qed.

Lemma prime_q1709 : prime 1709.
Proof. apply small_prime_ok. vm_compute. reflexivity. Qed.

Definition ctx_pallasq : mctx := {|
  mc_n := 10; mc_p := 28948022309329048855892746252171976963363056481941647379679742748393362948097;
  mc_M := [1; 74363408; 78175628; 160415897; 8774; 0; 0; 0; 0; 4]%uint63;
  mc_mi := 268435455%uint63;
  mc_r := 25958740505706866642386748066180336836601264351772665634073147959101948395151;
  mc_m1 := [67108864; 0; 18590852; 86652771; 174321702; 2193; 0; 0; 0; 0]%uint63 |}.
Lemma ctx_pallasq_ok : mctx_ok ctx_pallasq = true.
Proof. vm_compute. reflexivity. Qed.

Lemma prime_pallasq : prime 28948022309329048855892746252171976963363056481941647379679742748393362948097.
Proof.
  refine (pocklington ctx_pallasq [(10427374428728808478656897599072717, 1, 2); (1709, 1, 2); (3, 2, 2); (2, 32, 5)] ctx_pallasq_ok _ _).
  - repeat (apply Forall_cons; [cbn [fst]|]); [exact prime_q897599072717_114 | exact prime_q1709 | exact prime_q3 | exact prime_q2 | apply Forall_nil].
  - vm_compute. reflexivity.
Qed.
