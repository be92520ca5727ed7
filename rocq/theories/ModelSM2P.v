(** Model of /repo/sm2_std.go:65-128 and 132-531: the SM2 curve on top of the
    field of ModelSM2F.v.

    Every multiplication also reports whether its reduction went through
    without underflow.  The reports are collected by the monad [watched]: they are
    observations of the execution and never influence a result. *)
From Coq Require Import ZArith List Bool.
From Verif Require Import Base ModelECDSA ModelSM2F.
Import ListNotations.
Open Scope Z_scope.

Definition watched (A : Type) : Type := A * bool.
Definition ret {A} (a : A) : watched A := (a, true).
Definition bind {A B} (m : watched A) (f : A -> watched B) : watched B :=
  let '(a, s) := m in let '(b, s') := f a in (b, s && s').
Notation "'let*' x := m 'in' f" := (bind m (fun x => f))
  (at level 200, x name, m at level 100, f at level 200, right associativity).

Definition jpoint : Type := fe * fe * fe.
Definition mul (a b : fe) : watched fe := (sm2_mul a b, mul_safe a b).
Definition square (a : fe) : watched fe := (sm2_square a, square_safe a).

(* sm2_std.go:49-65, initsm2_stdParam *)
Definition sm2_a : Z := 0xFFFFFFFEFFFFFFFFFFFFFFFFFFFFFFFFFFFFFFFF00000000FFFFFFFFFFFFFFFC.
Definition sm2_b : Z := 0x28E9FA9E9D9F5E344D5A9E4BCF6509A7F39789F515AB8F92DDBCBD414D940E93.
Definition sm2_Gx : Z := 0x32C4AE2C1F1981195F9904466A39C9948FE30BBFF2660BE1715A4589334C74C7.
Definition sm2_Gy : Z := 0xBC3736A2F4F6779C59BDCEE36B692153D0A9877CC62A474002DF32E52139F0A0.
Definition sm2_fa : fe := sm2_from_big sm2_a.
Definition sm2_fb : fe := sm2_from_big sm2_b.

(* sm2_std.go:428-438, sm2_stdFactor *)
Definition sm2_factor : list fe :=
  [[0; 0; 0; 0; 0; 0; 0; 0; 0];
   [0x2; 0x0; 0x1FFFFF00; 0x7FF; 0x0; 0x0; 0x0; 0x2000000; 0x0];
   [0x4; 0x0; 0x1FFFFE00; 0xFFF; 0x0; 0x0; 0x0; 0x4000000; 0x0];
   [0x6; 0x0; 0x1FFFFD00; 0x17FF; 0x0; 0x0; 0x0; 0x6000000; 0x0];
   [0x8; 0x0; 0x1FFFFC00; 0x1FFF; 0x0; 0x0; 0x0; 0x8000000; 0x0];
   [0xA; 0x0; 0x1FFFFB00; 0x27FF; 0x0; 0x0; 0x0; 0xA000000; 0x0];
   [0xC; 0x0; 0x1FFFFA00; 0x2FFF; 0x0; 0x0; 0x0; 0xC000000; 0x0];
   [0xE; 0x0; 0x1FFFF900; 0x37FF; 0x0; 0x0; 0x0; 0xE000000; 0x0];
   [0x10; 0x0; 0x1FFFF800; 0x3FFF; 0x0; 0x0; 0x0; 0x0; 0x01]].
Definition sm2_one : fe := nth 1 sm2_factor [].
Definition fe_zero : fe := [0; 0; 0; 0; 0; 0; 0; 0; 0].

(* sm2_std.go:440-442, sm2_stdScalar *)
Definition scalar (b : fe) (a : nat) : watched fe := mul b (nth a sm2_factor []).

(* sm2_std.go:501-540, sm2_stdPointDouble.  The outputs may be the inputs: no
   input is read after the first output is written except through temporaries. *)
Definition sm2_point_double (p : jpoint) : watched jpoint :=
  let '(x, y, z) := p in
  let* x2 := square x in
  let* y2 := square y in
  let* z2 := square z in
  let* z4 := square z in
  let* z4 := mul z4 z in
  let* z4 := mul z4 z in
  let* y4 := square y in
  let* y4 := mul y4 y in
  let* y4 := mul y4 y in
  let* y4 := scalar y4 8 in
  let* s := mul x y2 in
  let* s := scalar s 4 in
  let* m := scalar x2 3 in
  let* az4 := mul sm2_fa z4 in
  let m := sm2_add m az4 in
  let* m2 := square m in
  let z3 := sm2_add y z in
  let* z3 := square z3 in
  let z3 := sm2_sub z3 z2 in
  let z3 := sm2_sub z3 y2 in
  let x3 := sm2_sub m2 s in
  let x3 := sm2_sub x3 s in
  let y3 := sm2_sub s x3 in
  let* y3 := mul y3 m in
  let y3 := sm2_sub y3 y4 in
  ret (x3, y3, z3).

(* sm2_std.go:444-499, sm2_stdPointAdd: the first component of the result is the
   first operand, which the doubling branch overwrites. *)
Definition sm2_point_add (p1 p2 : jpoint) : watched (jpoint * jpoint) :=
  let '(x1, y1, z1) := p1 in
  let '(x2, y2, z2) := p2 in
  if sm2_to_big z1 =? 0 then ret (p1, p2)
  else if sm2_to_big z2 =? 0 then ret (p1, p1)
  else
    let* z12 := square z1 in
    let* z22 := square z2 in
    let* z13 := mul z12 z1 in
    let* z23 := mul z22 z2 in
    let* u1 := mul x1 z22 in
    let* u2 := mul x2 z12 in
    let* s1 := mul y1 z23 in
    let* s2 := mul y2 z13 in
    let* p1 := if (sm2_to_big u1 =? sm2_to_big u2) && (sm2_to_big s1 =? sm2_to_big s2)
               then sm2_point_double (x1, y1, z1) else ret (x1, y1, z1) in
    let h := sm2_sub u2 u1 in
    let r := sm2_sub s2 s1 in
    let* r2 := square r in
    let* h2 := square h in
    let* tm := mul h2 h in
    let x3 := sm2_sub r2 tm in
    let* tm := mul u1 h2 in
    let* tm := scalar tm 2 in
    let x3 := sm2_sub x3 tm in
    let* tm := mul u1 h2 in
    let tm := sm2_sub tm x3 in
    let* y3 := mul r tm in
    let* tm := mul h2 h in
    let* tm := mul tm s1 in
    let y3 := sm2_sub y3 tm in
    let* z3 := mul (snd p1) z2 in
    let* z3 := mul z3 h in
    ret (p1, (x3, y3, z3)).

(* sm2_std.go:210-239, sm2_stdPointAddMixed *)
Definition sm2_point_add_mixed (p1 : jpoint) (x2 y2 : fe) : watched jpoint :=
  let '(x1, y1, z1) := p1 in
  let* z1z1 := square z1 in
  let tmp := sm2_add z1 z1 in
  let* u2 := mul x2 z1z1 in
  let* z1z1z1 := mul z1 z1z1 in
  let* s2 := mul y2 z1z1z1 in
  let h := sm2_sub u2 x1 in
  let i := sm2_add h h in
  let* i := square i in
  let* j := mul h i in
  let r := sm2_sub s2 y1 in
  let r := sm2_add r r in
  let* v := mul x1 i in
  let* zo := mul tmp h in
  let* rr := square r in
  let xo := sm2_sub rr j in
  let xo := sm2_sub xo v in
  let xo := sm2_sub xo v in
  let tmp := sm2_sub v xo in
  let* yo := mul tmp r in
  let* tmp := mul y1 j in
  let yo := sm2_sub yo tmp in
  let yo := sm2_sub yo tmp in
  ret (xo, yo, zo).

(* sm2_std.go:408-426, sm2_stdPointToAffine and sm2_stdToAffine.  ModInverse
   leaves its receiver unchanged when there is no inverse. *)
Definition sm2_to_affine (p : jpoint) : watched (Z * Z) :=
  let '(x, y, z) := p in
  let zz := sm2_to_big z in
  let zz := match mod_inverse zz sm2_P with Some i => i | None => zz end in
  let zInv := sm2_from_big zz in
  let* zInvSq := square zInv in
  let* xo := mul x zInvSq in
  let* zInv := mul zInv zInvSq in
  let* yo := mul y zInv in
  ret (sm2_to_big xo, sm2_to_big yo).

(* sm2_std.go:85-98, Add, with zForAffine (standard library: z = 0 for (0, 0)
   and 1 otherwise) *)
Definition sm2_z_for_affine (x y : Z) : Z := if (x =? 0) && (y =? 0) then 0 else 1.
Definition sm2_jac (x y : Z) : jpoint :=
  (sm2_from_big x, sm2_from_big y, sm2_from_big (sm2_z_for_affine x y)).
Definition sm2_Add (x1 y1 x2 y2 : Z) : watched (Z * Z) :=
  let* r := sm2_point_add (sm2_jac x1 y1) (sm2_jac x2 y2) in
  sm2_to_affine (snd r).

(* sm2_std.go:100-110, Double *)
Definition sm2_Double (x1 y1 : Z) : watched (Z * Z) :=
  let* r := sm2_point_double (sm2_jac x1 y1) in sm2_to_affine r.

(* sm2_std.go:71-83, IsOnCurve *)
Definition sm2_IsOnCurve (X Y : Z) : watched bool :=
  let x := sm2_from_big X in
  let y := sm2_from_big Y in
  let* x3 := square x in
  let* x3 := mul x3 x in
  let* a := mul sm2_fa x in
  let x3 := sm2_add x3 a in
  let x3 := sm2_add x3 sm2_fb in
  let* y2 := square y in
  ret (sm2_to_big x3 =? sm2_to_big y2).

(* sm2_std.go:195-208, sm2_stdGetScalar: 32 bytes, least significant first.
   A scalar of more than 32 bytes whose value is below N makes the Go code index
   out of range; here the excess bytes, all zero, are dropped.  No exported
   function passes more than 32 bytes. *)
Definition sm2_get_scalar (a : bytes) : list Z :=
  let b := rev (if sm2_N <=? be2z a then big_bytes (be2z a mod sm2_N) else a) in
  firstn 32 (b ++ repeat 0 32).

(* sm2_std.go:241-248, sm2_stdCopyConditional; the mask is all ones (true) or 0 (false) *)
Definition copy_if (mask : bool) (out inp : jpoint) : jpoint := if mask then inp else out.
(** The safety report of a result that is not kept does not matter. *)
Definition kept {A} (mask : bool) (m : watched A) : watched A := (fst m, negb mask || snd m).

(* sm2_std.go:258-262 and 287-291: the selection mask *)
Definition select_mask (i index : Z) : Z :=
  let m := Z.lxor i index in
  let m := Z.lor m (shr m 2) in
  let m := Z.lor m (shr m 1) in
  let m := Z.land m 1 in
  u32 (m - 1).
Definition or_row (mask : Z) (out row : fe) : fe :=
  map (fun '(o, t) => Z.lor o (Z.land t mask)) (combine out row).
Fixpoint select_from (i index : Z) (rows : list fe) (out : fe) : fe :=
  match rows with
  | [] => out
  | row :: rows' => select_from (i + 1) index rows' (or_row (select_mask i index) out row)
  end.
(* sm2_std.go:250-273, sm2_stdSelectAffinePoint, on a table of (x, y) rows *)
Definition select_affine (table : list (fe * fe)) (index : Z) : fe * fe :=
  (select_from 1 index (map fst table) fe_zero, select_from 1 index (map snd table) fe_zero).
(* sm2_std.go:275-302, sm2_stdSelectJacobianPoint, on entries 1 to 15 *)
Definition select_jacobian (table : list jpoint) (index : Z) : jpoint :=
  (select_from 1 index (map (fun e => fst (fst e)) table) fe_zero,
   select_from 1 index (map (fun e => snd (fst e)) table) fe_zero,
   select_from 1 index (map snd table) fe_zero).

(* sm2_std.go:304-306, sm2_stdGetBit *)
Definition sm2_get_bit (k : list Z) (bit : Z) : Z :=
  Z.land (shr (nth (Z.to_nat (bit / 8)) k 0) (bit mod 8)) 1.

(* sm2_std.go:132-193, sm2_stdPrecomputed: rows of nine limbs, x and y in turn;
   generated by tools/sm2mul.py *)
Definition sm2_precomputed : list fe :=
  [[0x830053d; 0x328990f; 0x6c04fe1; 0xc0f72e5; 0x1e19f3c; 0x666b093; 0x175a87b; 0xec38276; 0x222cf4b];
   [0x185a1bba; 0x354e593; 0x1295fac1; 0xf2bc469; 0x47c60fa; 0xc19b8a9; 0xf63533e; 0x903ae6b; 0xc79acba];
   [0x15b061a4; 0x33e020b; 0xdffb34b; 0xfcf2c8; 0x16582e08; 0x262f203; 0xfb34381; 0xa55452; 0x604f0ff];
   [0x41f1f90; 0xd64ced2; 0xee377bf; 0x75f05f0; 0x189467ae; 0xe2244e; 0x1e7700e8; 0x3fbc464; 0x9612d2e];
   [0x1341b3b8; 0xee84e23; 0x1edfa5b4; 0x14e6030; 0x19e87be9; 0x92f533c; 0x1665d96c; 0x226653e; 0xa238d3e];
   [0xf5c62c; 0x95bb7a; 0x1f0e5a41; 0x28789c3; 0x1f251d23; 0x8726609; 0xe918910; 0x8096848; 0xf63d028];
   [0x152296a1; 0x9f561a8; 0x14d376fb; 0x898788a; 0x61a95fb; 0xa59466d; 0x159a003d; 0x1ad1698; 0x93cca08];
   [0x1b314662; 0x706e006; 0x11ce1e30; 0x97b710; 0x172fbc0d; 0x8f50158; 0x11c7ffe7; 0xd182cce; 0xc6ad9e8];
   [0x12ea31b2; 0xc4e4f38; 0x175b0d96; 0xec06337; 0x75a9c12; 0xb001fdf; 0x93e82f5; 0x34607de; 0xb8035ed];
   [0x17f97924; 0x75cf9e6; 0xdceaedd; 0x2529924; 0x1a10c5ff; 0xb1a54dc; 0x19464d8; 0x2d1997; 0xde6a110];
   [0x1e276ee5; 0x95c510c; 0x1aca7c7a; 0xfe48aca; 0x121ad4d9; 0xe4132c6; 0x8239b9d; 0x40ea9cd; 0x816c7b];
   [0x632d7a4; 0xa679813; 0x5911fcf; 0x82b0f7c; 0x57b0ad5; 0xbef65; 0xd541365; 0x7f9921f; 0xc62e7a];
   [0x3f4b32d; 0x58e50e1; 0x6427aed; 0xdcdda67; 0xe8c2d3e; 0x6aa54a4; 0x18df4c35; 0x49a6a8e; 0x3cd3d0c];
   [0xd7adf2; 0xcbca97; 0x1bda5f2d; 0x3258579; 0x606b1e6; 0x6fc1b5b; 0x1ac27317; 0x503ca16; 0xa677435];
   [0x57bc73; 0x3992a42; 0xbab987b; 0xfab25eb; 0x128912a4; 0x90a1dc4; 0x1402d591; 0x9ffbcfc; 0xaa48856];
   [0x7a7c2dc; 0xcefd08a; 0x1b29bda6; 0xa785641; 0x16462d8c; 0x76241b7; 0x79b6c3b; 0x204ae18; 0xf41212b];
   [0x1f567a4d; 0xd6ce6db; 0xedf1784; 0x111df34; 0x85d7955; 0x55fc189; 0x1b7ae265; 0xf9281ac; 0xded7740];
   [0xf19468b; 0x83763bb; 0x8ff7234; 0x3da7df8; 0x9590ac3; 0xdc96f2a; 0x16e44896; 0x7931009; 0x99d5acc];
   [0x10f7b842; 0xaef5e84; 0xc0310d7; 0xdebac2c; 0x2a7b137; 0x4342344; 0x19633649; 0x3a10624; 0x4b4cb56];
   [0x1d809c59; 0xac007f; 0x1f0f4bcd; 0xa1ab06e; 0xc5042cf; 0x82c0c77; 0x76c7563; 0x22c30f3; 0x3bf1568];
   [0x7a895be; 0xfcca554; 0x12e90e4c; 0x7b4ab5f; 0x13aeb76b; 0x5887e2c; 0x1d7fe1e3; 0x908c8e3; 0x95800ee];
   [0xb36bd54; 0xf08905d; 0x4e73ae8; 0xf5a7e48; 0xa67cb0; 0x50e1067; 0x1b944a0a; 0xf29c83a; 0xb23cfb9];
   [0xbe1db1; 0x54de6e8; 0xd4707f2; 0x8ebcc2d; 0x2c77056; 0x1568ce4; 0x15fcc849; 0x4069712; 0xe2ed85f];
   [0x2c5ff09; 0x42a6929; 0x628e7ea; 0xbd5b355; 0xaf0bd79; 0xaa03699; 0xdb99816; 0x4379cef; 0x81d57b];
   [0x11237f01; 0xe2a820b; 0xfd53b95; 0x6beb5ee; 0x1aeb790c; 0xe470d53; 0x2c2cfee; 0x1c1d8d8; 0xa520fc4];
   [0x1518e034; 0xa584dd4; 0x29e572b; 0xd4594fc; 0x141a8f6f; 0x8dfccf3; 0x5d20ba3; 0x2eb60c3; 0x9f16eb0];
   [0x11cec356; 0xf039f84; 0x1b0990c1; 0xc91e526; 0x10b65bae; 0xf0616e8; 0x173fa3ff; 0xec8ccf9; 0xbe32790];
   [0x11da3e79; 0xe2f35c7; 0x908875c; 0xdacf7bd; 0x538c165; 0x8d1487f; 0x7c31aed; 0x21af228; 0x7e1689d];
   [0xdfc23ca; 0x24f15dc; 0x25ef3c4; 0x35248cd; 0x99a0f43; 0xa4b6ecc; 0xd066b3; 0x2481152; 0x37a7688];
   [0x15a444b6; 0xb62300c; 0x4b841b; 0xa655e79; 0xd53226d; 0xbeb348a; 0x127f3c2; 0xb989247; 0x71a277d];
   [0x19e9dfcb; 0xb8f92d0; 0xe2d226c; 0x390a8b0; 0x183cc462; 0x7bd8167; 0x1f32a552; 0x5e02db4; 0xa146ee9];
   [0x1a003957; 0x1c95f61; 0x1eeec155; 0x26f811f; 0xf9596ba; 0x3082bfb; 0x96df083; 0x3e3a289; 0x7e2d8be];
   [0x157a63e0; 0x99b8941; 0x1da7d345; 0xcc6cd0; 0x10beed9a; 0x48e83c0; 0x13aa2e25; 0x7cad710; 0x4029988];
   [0x13dfa9dd; 0xb94f884; 0x1f4adfef; 0xb88543; 0x16f5f8dc; 0xa6a67f4; 0x14e274e2; 0x5e56cf4; 0x2f24ef];
   [0x1e9ef967; 0xfe09bad; 0xfe079b3; 0xcc0ae9e; 0xb3edf6d; 0x3e961bc; 0x130d7831; 0x31043d6; 0xba986f9];
   [0x1d28055; 0x65240ca; 0x4971fa3; 0x81b17f8; 0x11ec34a5; 0x8366ddc; 0x1471809; 0xfa5f1c6; 0xc911e15];
   [0x8849491; 0xcf4c2e2; 0x14471b91; 0x39f75be; 0x445c21e; 0xf1585e9; 0x72cc11f; 0x4c79f0c; 0xe5522e1];
   [0x1874c1ee; 0x4444211; 0x7914884; 0x3d1b133; 0x25ba3c; 0x4194f65; 0x1c0457ef; 0xac4899d; 0xe1fa66c];
   [0x130a7918; 0x9b8d312; 0x4b1c5c8; 0x61ccac3; 0x18c8aa6f; 0xe93cb0a; 0xdccb12c; 0xde10825; 0x969737d];
   [0xf58c0c3; 0x7cee6a9; 0xc2c329a; 0xc7f9ed9; 0x107b3981; 0x696a40e; 0x152847ff; 0x4d88754; 0xb141f47];
   [0x5a16ffe; 0x3a7870a; 0x18667659; 0x3b72b03; 0xb1c9435; 0x9285394; 0xa00005a; 0x37506c; 0x2edc0bb];
   [0x19afe392; 0xeb39cac; 0x177ef286; 0xdf87197; 0x19f844ed; 0x31fe8; 0x15f9bfd; 0x80dbec; 0x342e96e];
   [0x497aced; 0xe88e909; 0x1f5fa9ba; 0x530a6ee; 0x1ef4e3f1; 0x69ffd12; 0x583006d; 0x2ecc9b1; 0x362db70];
   [0x18c7bdc5; 0xf4bb3c5; 0x1c90b957; 0xf067c09; 0x9768f2b; 0xf73566a; 0x1939a900; 0x198c38a; 0x202a2a1];
   [0x4bbf5a6; 0x4e265bc; 0x1f44b6e7; 0x185ca49; 0xa39e81b; 0x24aff5b; 0x4acc9c2; 0x638bdd3; 0xb65b2a8];
   [0x6def8be; 0xb94537a; 0x10b81dee; 0xe00ec55; 0x2f2cdf7; 0xc20622d; 0x2d20f36; 0xe03c8c9; 0x898ea76];
   [0x8e3921b; 0x8905bff; 0x1e94b6c8; 0xee7ad86; 0x154797f2; 0xa620863; 0x3fbd0d9; 0x1f3caab; 0x30c24bd];
   [0x19d3892f; 0x59c17a2; 0x1ab4b0ae; 0xf8714ee; 0x90c4098; 0xa9c800d; 0x1910236b; 0xea808d3; 0x9ae2f31];
   [0x1a15ad64; 0xa48c8d1; 0x184635a4; 0xb725ef1; 0x11921dcc; 0x3f866df; 0x16c27568; 0xbdf580a; 0xb08f55c];
   [0x186ee1c; 0xb1627fa; 0x34e82f6; 0x933837e; 0xf311be5; 0xfedb03b; 0x167f72cd; 0xa5469c0; 0x9c82531];
   [0xb92a24b; 0x14fdc8b; 0x141980d1; 0xbdc3a49; 0x7e02bb1; 0xaf4e6dd; 0x106d99e1; 0xd4616fc; 0x93c2717];
   [0x1c0a0507; 0xc6d5fed; 0x9a03d8b; 0xa1d22b0; 0x127853e3; 0xc4ac6b8; 0x1a048cf7; 0x9afb72c; 0x65d485d];
   [0x72d5998; 0xe9fa744; 0xe49e82c; 0x253cf80; 0x5f777ce; 0xa3799a5; 0x17270cbb; 0xc1d1ef0; 0xdf74977];
   [0x114cb859; 0xfa8e037; 0xb8f3fe5; 0xc734cc6; 0x70d3d61; 0xeadac62; 0x12093dd0; 0x9add67d; 0x87200d6];
   [0x175bcbb; 0xb29b49f; 0x1806b79c; 0x12fb61f; 0x170b3a10; 0x3aaf1cf; 0xa224085; 0x79d26af; 0x97759e2];
   [0x92e19f1; 0xb32714d; 0x1f00d9f1; 0xc728619; 0x9e6f627; 0xe745e24; 0x18ea4ace; 0xfc60a41; 0x125f5b2];
   [0xc3cf512; 0x39ed486; 0xf4d15fa; 0xf9167fd; 0x1c1f5dd5; 0xc21a53e; 0x1897930; 0x957a112; 0x21059a0];
   [0x1f9e3ddc; 0xa4dfced; 0x8427f6f; 0x726fbe7; 0x1ea658f8; 0x2fdcd4c; 0x17e9b66f; 0xb2e7c2e; 0x39923bf];
   [0x1bae104; 0x3973ce5; 0xc6f264c; 0x3511b84; 0x124195d7; 0x11996bd; 0x20be23d; 0xdc437c4; 0x4b4f16b];
   [0x11902a0; 0x6c29cc9; 0x1d5ffbe6; 0xdb0b4c7; 0x10144c14; 0x2f2b719; 0x301189; 0x2343336; 0xa0bf2ac]].
Fixpoint pairs (l : list fe) : list (fe * fe) :=
  match l with x :: y :: l' => (x, y) :: pairs l' | _ => [] end.
Definition sm2_table (half : nat) : list (fe * fe) := pairs (firstn 30 (skipn (30 * half) sm2_precomputed)).

(* sm2_std.go:331-349: one pass of the inner loop, adding the entry [index] of a
   table to the accumulator; the flag says that the accumulator is infinity *)
Definition base_step (table : list (fe * fe)) (index : Z) (st : jpoint * bool) : watched (jpoint * bool) :=
  let '(acc, inf) := st in
  let '(px, py) := select_affine table index in
  let noninf := negb (index =? 0) in
  let mask := noninf && negb inf in
  let* t := kept mask (sm2_point_add_mixed acc px py) in
  let acc := copy_if inf acc (px, py, sm2_one) in
  let acc := copy_if mask acc t in
  ret (acc, inf && negb noninf).
Definition base_index (k : list Z) (i j : Z) : Z :=
  let bit0 := sm2_get_bit k (31 - i + j) in
  let bit1 := sm2_get_bit k (95 - i + j) in
  let bit2 := sm2_get_bit k (159 - i + j) in
  let bit3 := sm2_get_bit k (223 - i + j) in
  Z.lor (Z.lor (Z.lor bit0 (shl bit1 1)) (shl bit2 2)) (shl bit3 3).
(* sm2_std.go:324-350: the outer loop, from iteration i *)
Fixpoint base_loop (n : nat) (k : list Z) (i : Z) (st : jpoint * bool) : watched (jpoint * bool) :=
  match n with
  | O => ret st
  | S n' =>
      let* acc := if i =? 0 then ret (fst st) else kept (negb (snd st)) (sm2_point_double (fst st)) in
      let* st := base_step (sm2_table 0) (base_index k i 0) (acc, snd st) in
      let* st := base_step (sm2_table 1) (base_index k i 32) st in
      base_loop n' k (i + 1) st
  end.
(* sm2_std.go:308-351, sm2_stdScalarBaseMult *)
Definition sm2_scalar_base_mult (k : list Z) : watched jpoint :=
  let* st := base_loop 32 k 0 ((fe_zero, fe_zero, fe_zero), true) in ret (fst st).

(* sm2_std.go:358-365: entries 1 to 15 of the table of multiples *)
Fixpoint mult_table (n : nat) (i : nat) (x y : fe) (table : list jpoint) : watched (list jpoint) :=
  match n with
  | O => ret table
  | S n' =>
      let* d := sm2_point_double (nth (i / 2 - 1) table (fe_zero, fe_zero, fe_zero)) in
      let* a := sm2_point_add_mixed d x y in
      mult_table n' (i + 2) x y (table ++ [d; a])
  end.
Definition mult_index (k : list Z) (i : Z) : Z :=
  let b := nth (Z.to_nat (31 - i / 2)) k 0 in
  if Z.land i 1 =? 1 then Z.land b 15 else shr b 4.
Definition mult_step (table : list jpoint) (index : Z) (st : jpoint * bool) : watched (jpoint * bool) :=
  let '(acc, inf) := st in
  let p := select_jacobian table index in
  let noninf := negb (index =? 0) in
  let mask := noninf && negb inf in
  let* t := kept mask (sm2_point_add acc p) in
  let acc := if mask then fst t else acc in
  let acc := copy_if inf acc p in
  let acc := copy_if mask acc (snd t) in
  ret (acc, inf && negb noninf).
(* sm2_std.go:378-405: the loop, from iteration i *)
Fixpoint mult_loop (n : nat) (table : list jpoint) (k : list Z) (i : Z) (st : jpoint * bool) : watched (jpoint * bool) :=
  match n with
  | O => ret st
  | S n' =>
      let dbl (m : watched jpoint) := bind m sm2_point_double in
      let* acc := if i =? 0 then ret (fst st)
                  else kept (negb (snd st)) (dbl (dbl (dbl (dbl (ret (fst st)))))) in
      let* st := mult_step table (mult_index k i) (acc, snd st) in
      mult_loop n' table k (i + 1) st
  end.
(* sm2_std.go:353-406, sm2_stdScalarMult *)
Definition sm2_scalar_mult (x y : fe) (k : list Z) : watched jpoint :=
  let* table := mult_table 7 2 x y [(x, y, sm2_one)] in
  let* st := mult_loop 64 table k 0 ((fe_zero, fe_zero, fe_zero), true) in ret (fst st).

(* sm2_std.go:112-120, ScalarMult *)
Definition sm2_ScalarMult (x1 y1 : Z) (k : bytes) : watched (Z * Z) :=
  let* r := sm2_scalar_mult (sm2_from_big x1) (sm2_from_big y1) (sm2_get_scalar k) in
  sm2_to_affine r.
(* sm2_std.go:122-129, ScalarBaseMult *)
Definition sm2_ScalarBaseMult (k : bytes) : watched (Z * Z) :=
  let* r := sm2_scalar_base_mult (sm2_get_scalar k) in sm2_to_affine r.

(** The curve as the rest of the package uses it: results without reports. *)
Definition sm2_curve : ecurve := {|
  e_P := sm2_P; e_N := sm2_N;
  e_Add := fun x1 y1 x2 y2 => fst (sm2_Add x1 y1 x2 y2);
  e_ScalarMult := fun x y k => fst (sm2_ScalarMult x y k);
  e_ScalarBaseMult := fun k => fst (sm2_ScalarBaseMult k) |}.
