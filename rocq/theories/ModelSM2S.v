(** Model of /repo/sm2_std.go:980-1722 and of the SM2 branches of ecdsa.go: the
    SM2 signature, encryption and key agreement on top of the curve of
    ModelSM2P.v and the hash of ModelSM3.v.

    As in ModelSM2P.v the pair type [watched] carries, beside the result, a report:
    true when no field multiplication of the execution went through the
    underflow of the reduction.  The report never influences a result. *)
From Coq Require Import ZArith List Bool.
From Verif Require Import Base Words ModelECDSA ModelSM2F ModelSM2P ModelSM3.
Import ListNotations.
Open Scope Z_scope.

(** sm3.New(), the Writes in turn, Sum(nil). *)
Definition sm3_of (chunks : list bytes) : bytes :=
  snd (sm3_sum (fold_left sm3_write chunks sm3_new) []).

(* sm2_std.go:980-1005, ZA; None is the error *)
Definition sm2_ZA (x y : Z) (uid : bytes) : option bytes :=
  if 8192 <=? Z.of_nat (length uid) then None
  else
    let entla := Z.of_nat (8 * length uid) mod 2 ^ 16 in
    Some (sm3_of [[Z.land (Z.shiftr entla 8) 255]; [Z.land entla 255]; uid;
                  big_bytes (sm2_to_big sm2_fa); big_bytes sm2_b; big_bytes sm2_Gx; big_bytes sm2_Gy;
                  pad32 (big_bytes x); pad32 (big_bytes y)]).

(* sm2_std.go:1007-1012, msgHash *)
Definition sm2_msgHash (za msg : bytes) : Z := be2z (sm3_of [za; msg]).

(* sm2_std.go:1016-1034 and 1107-1123: the number e that is signed.  [uid] is
   None for a nil slice. *)
Definition sm2_e (x y : Z) (hash : bytes) (uid : option bytes) : result Z :=
  match uid with
  | None => if negb (length hash =? 32)%nat then Err ErrMessageIllegal else Ok (be2z hash)
  | Some id => match sm2_ZA x y id with
               | None => Err ErrOther
               | Some za => Ok (sm2_msgHash za hash)
               end
  end.

(* sm2_std.go:1068-1101: both loops, as one loop over the nonces drawn.  [None]:
   still looping after [fuel] draws.  The inner loop is left when r <> 0 or
   when r = 0 and r + k = N.  ModInverse returns nil when D + 1 has no inverse;
   the multiplication that follows then panics. *)
Fixpoint sm2_sign_loop (d e : Z) (draws : nat -> bytes) (fuel i : nat) : watched (option (outcome (Z * Z * Z))) :=
  match fuel with
  | O => ret None
  | S f =>
      let k := rand_field_element sm2_N (draws i) in
      let* P := sm2_ScalarBaseMult (big_bytes k) in
      let r := (fst P + e) mod sm2_N in
      let v := if snd P mod 2 =? 1 then 1 else 0 in
      if negb (r =? 0) || (r + k =? sm2_N) then
        match mod_inverse (d + 1) sm2_N with
        | None => ret (Some Panic)
        | Some d1Inv =>
            let s := ((k - d * r) * d1Inv) mod sm2_N in
            if negb (s =? 0) then ret (Some (Ret (r, s, v)))
            else sm2_sign_loop d e draws f (S i)
        end
      else sm2_sign_loop d e draws f (S i)
  end.

(* ecdsa.go:111-118, 127-129, 152-173, sign for "sm2_std", and
   sm2_std.go:1014-1066.  [entropy] is what crypto/rand delivers (None: read
   error), [drbg] the SHA-512/AES-CTR generator as in ModelECDSA.v. *)
Definition sm2_sign (drbg : bytes -> nat -> bytes) (entropy : option bytes) (fuel : nat)
    (prikey : bytes) (ID : option bytes) (hash : bytes) : watched (option (outcome (result (bytes * Z)))) :=
  if negb (length prikey =? 32)%nat then ret (Some (Ret (Err ErrPrivateKeyIllegal)))
  else if negb (length hash =? 32)%nat then ret (Some (Ret (Err ErrMessageIllegal)))
  else let d := be2z prikey in
  if d =? 0 then ret (Some (Ret (Err ErrPrivateKeyIllegal)))
  else if sm2_N <=? d then ret (Some (Ret (Err ErrPrivateKeyIllegal)))
  else
    let* Q := sm2_ScalarBaseMult prikey in
    match sm2_e (fst Q) (snd Q) hash ID with
    | Err er => ret (Some (Ret (Err er)))
    | Ok e =>
        match entropy with
        | None => ret (Some (Ret (Err ErrOther)))
        | Some ent =>
            let* o := sm2_sign_loop d e (drbg (big_bytes d ++ ent ++ hash)) fuel 0 in
            ret match o with
                | None => None
                | Some Panic => Some Panic
                | Some (Ret (r, s, v)) => Some (Ret (Ok (pad32 (big_bytes r) ++ pad32 (big_bytes s), v)))
                end
        end
    end.

(* sm2_std.go:1105-1149, sm2_std_verify *)
Definition sm2_std_verify (x y : Z) (hash : bytes) (uid : option bytes) (r s : Z) : watched bool :=
  match sm2_e x y hash uid with
  | Err _ => ret false
  | Ok e =>
      if (r <=? 0) || (s <=? 0) then ret false
      else if (sm2_N <=? r) || (sm2_N <=? s) then ret false
      else
        let t := (r + s) mod sm2_N in
        if t =? 0 then ret false
        else
          let* P1 := sm2_ScalarBaseMult (big_bytes s) in
          let* P2 := sm2_ScalarMult x y (big_bytes t) in
          let* P := sm2_Add (fst P1) (snd P1) (fst P2) (snd P2) in
          ret ((fst P + e) mod sm2_N =? r)
  end.

(* ecdsa.go:196-224, verify for "sm2_std" *)
Definition sm2_verify (pubkey : bytes) (ID : option bytes) (hash signature : bytes) : watched bool :=
  if negb (length pubkey =? 64)%nat then ret false
  else if negb (length signature =? 64)%nat then ret false
  else if negb (length hash =? 32)%nat then ret false
  else sm2_std_verify (be2z (firstn 32 pubkey)) (be2z (skipn 32 pubkey)) hash ID
                      (be2z (firstn 32 signature)) (be2z (skipn 32 signature)).

(* sm2_std.go:1151-1182, kdf.  [kdf_blocks n i] is what iterations i .. i+n-1
   append to c; n + i is the number of iterations j.  A negative length gives
   no iteration and the result false. *)
Fixpoint kdf_blocks (xy : bytes) (len : nat) (n i : nat) : bytes :=
  match n with
  | O => []
  | S n' =>
      let hash := sm3_of [xy; z2be 4 (Z.of_nat (i + 1) mod 2 ^ 32)] in
      (if (n' =? 0)%nat && negb (len mod 32 =? 0)%nat then firstn (len mod 32) hash else hash)
      ++ kdf_blocks xy len n' (S i)
  end.
Definition sm2_kdf (x y : bytes) (len : nat) : bytes * bool :=
  let c := kdf_blocks (x ++ y) len ((len + 31) / 32) 0 in
  (c, existsb (fun b => negb (b =? 0)) (firstn len c)).

Definition xor_bytes (a b : bytes) : bytes := map (fun p => Z.lxor (fst p) (snd p)) (combine a b).

(* sm2_std.go:1184-1228, sm2_std_encrypt: loop over the 40-byte blocks read from
   crypto/rand (None: read error) *)
Fixpoint sm2_encrypt_loop (x y : Z) (data : bytes) (rand : nat -> option bytes) (fuel i : nat)
  : watched (option (result bytes)) :=
  match fuel with
  | O => ret None
  | S f =>
      match rand i with
      | None => ret (Some (Err ErrOther))
      | Some blk =>
          let k := rand_field_element sm2_N blk in
          let* P1 := sm2_ScalarBaseMult (big_bytes k) in
          let* P2 := sm2_ScalarMult x y (big_bytes k) in
          let x2 := pad32 (big_bytes (fst P2)) in
          let y2 := pad32 (big_bytes (snd P2)) in
          let h := Sm3Sum (x2 ++ data ++ y2) in
          let '(ct, ok) := sm2_kdf x2 y2 (length data) in
          if ok then
            ret (Some (Ok ([4] ++ pad32 (big_bytes (fst P1)) ++ pad32 (big_bytes (snd P1)) ++ h
                           ++ xor_bytes ct data)))
          else sm2_encrypt_loop x y data rand f (S i)
      end
  end.

(* ecdsa.go:236-255, encrypt *)
Definition sm2_encrypt (rand : nat -> option bytes) (fuel : nat) (pubkey plain : bytes)
  : watched (option (outcome (result bytes))) :=
  if negb (length pubkey =? 64)%nat then ret (Some (Ret (Err ErrPublicKeyIllegal)))
  else if (length plain =? 0)%nat then ret (Some (Ret (Err ErrMessageIllegal)))
  else
    let* o := sm2_encrypt_loop (be2z (firstn 32 pubkey)) (be2z (skipn 32 pubkey)) plain rand fuel 0 in
    ret (option_map Ret o).

(* sm2_std.go:1230-1262, sm2_std_decrypt: the data returned and the error, if
   any.  data[1:], data[:32] and data[32:64] panic on a short input; with fewer
   than 96 bytes after the first, [length] is negative and kdf reports false. *)
Definition sm2_std_decrypt (d : Z) (data : bytes) : watched (outcome (bytes * option err)) :=
  match data with
  | [] => ret Panic
  | _ :: data =>
      if (length data <? 64)%nat then ret Panic
      else
        let* P2 := sm2_ScalarMult (be2z (firstn 32 data)) (be2z (firstn 32 (skipn 32 data))) (big_bytes d) in
        let x2 := pad32 (big_bytes (fst P2)) in
        let y2 := pad32 (big_bytes (snd P2)) in
        if (length data <? 96)%nat then ret (Ret ([], Some ErrOther))
        else
          let '(c, ok) := sm2_kdf x2 y2 (length data - 96) in
          if negb ok then ret (Ret ([], Some ErrOther))
          else
            let c := xor_bytes c (skipn 96 data) in
            let h := Sm3Sum (x2 ++ c ++ y2) in
            if list_eq_dec Z.eq_dec h (firstn 32 (skipn 64 data))
            then ret (Ret (c, None)) else ret (Ret (c, Some ErrOther))
  end.

(* ecdsa.go:257-287, decrypt *)
Definition sm2_decrypt (prikey cipher : bytes) : watched (outcome (bytes * option err)) :=
  if negb (length prikey =? 32)%nat then ret (Ret ([], Some ErrPrivateKeyIllegal))
  else if (length cipher =? 0)%nat then ret (Ret ([], Some ErrMessageIllegal))
  else let d := be2z prikey in
  if sm2_N <=? d then ret (Ret ([], Some ErrPrivateKeyIllegal))
  else let* Q := sm2_ScalarBaseMult prikey in sm2_std_decrypt d cipher.

(* sm2_std.go:1264-1308, ka_kdf; [n] counts the remaining iterations up to hlen1,
   [bits] is keyLengthbit, a uint16 *)
Fixpoint ka_kdf_loop (x y zi zr : bytes) (n : nat) (i bits : Z) : bytes :=
  match n with
  | O => []
  | S n' =>
      let h := sm3_of [x; y; zi; zr; z2be 4 i] in
      (if 256 <=? bits then h else firstn (Z.to_nat (bits / 8)) h)
      ++ ka_kdf_loop x y zi zr n' (i + 1) ((bits - 256) mod 2 ^ 16)
  end.
Definition sm2_ka_kdf (px py : Z) (zi zr : bytes) (bits : Z) : bytes :=
  let hlen1 := if bits mod 256 =? 0 then bits / 256 else bits / 256 + 1 in
  ka_kdf_loop (pad32 (big_bytes px)) (pad32 (big_bytes py)) zi zr (Z.to_nat hlen1) 1 bits.

(* sm2_std.go:1310-1334, ka_check *)
Definition sm2_ka_check (value : Z) (zi zr ri rr : bytes) (px py : Z) : bytes :=
  let tmp := sm3_of [pad32 (big_bytes px); zi; zr; ri; rr] in
  sm3_of [[value]; pad32 (big_bytes py); tmp].

(* sm2_std.go:1379-1381 and its twins: bytes 16 to 31 of a public key with the
   top bit of the first set *)
Definition ka_bar (pub : bytes) : bytes :=
  match firstn 16 (skipn 16 pub) with
  | b :: bs => Z.lor b 128 :: bs
  | [] => []
  end.

(* sm2_std.go:1385-1411 and 1516-1543, the common part: the shared point from
   the own private key and temporary key pair and the other side's keys *)
Definition ka_point (prikey tmpPri tmpPub otherPub otherTmp : bytes) : watched (Z * Z) :=
  let t := (be2z prikey + be2z (ka_bar tmpPub) * be2z tmpPri) mod sm2_N in
  let* P1 := sm2_ScalarMult (be2z (firstn 32 otherTmp)) (be2z (skipn 32 otherTmp)) (ka_bar otherTmp) in
  let* P1 := sm2_Add (fst P1) (snd P1) (be2z (firstn 32 otherPub)) (be2z (skipn 32 otherPub)) in
  sm2_ScalarMult (fst P1) (snd P1) (big_bytes t).

(* sm2_std.go:1413-1443 and 1545-1574: the two Z values *)
Definition ka_ids (idI idR pubI pubR : bytes) : option (bytes * bytes) :=
  if negb (length pubI =? 64)%nat then None
  else if negb (length pubR =? 64)%nat then None
  else if (length idI =? 0)%nat then None
  else match sm2_ZA (be2z (firstn 32 pubI)) (be2z (skipn 32 pubI)) idI with
  | None => None
  | Some zi =>
      if (length idR =? 0)%nat then None
      else match sm2_ZA (be2z (firstn 32 pubR)) (be2z (skipn 32 pubR)) idR with
      | None => None
      | Some zr => Some (zi, zr)
      end
  end.

(* sm2_std.go:1336-1348, sm2_std_ka_initiaor_step1; [random] is what rand.Read
   left in the 32-byte buffer.  A zero key gives a nil public key. *)
Definition sm2_ka_initiator_step1 (random : bytes) : watched (bytes * bytes) :=
  let pri := pad32 (big_bytes (be2z random mod sm2_N)) in
  let* Q := sm2_ScalarBaseMult pri in
  ret (pri, if be2z pri =? 0 then [] else marshal_xy (fst Q) (snd Q)).

(* sm2_std.go:1350-1464, sm2_std_ka_initiator_step2: key, Sout, and whether err
   is nil *)
Definition sm2_ka_initiator_step2 (idI idR prikey pubI pubR tmpPri tmpPubI tmpPubR sin : bytes) (keylen : Z)
  : watched (outcome (bytes * bytes * bool)) :=
  let fail := ret (Ret ([], [], false)) in
  if negb (length tmpPubR =? 64)%nat then fail
  else
    let* on := sm2_IsOnCurve (be2z (firstn 32 tmpPubR)) (be2z (skipn 32 tmpPubR)) in
    if negb on then fail
    else if negb (length tmpPubI =? 64)%nat then fail
    else if negb (length tmpPri =? 32)%nat then fail
    else if negb (length prikey =? 32)%nat then fail
    else if (length pubR <? 32)%nat then ret Panic
    else
      let* P := ka_point prikey tmpPri tmpPubI pubR tmpPubR in
      match ka_ids idI idR pubI pubR with
      | None => fail
      | Some (zi, zr) =>
          let key := sm2_ka_kdf (fst P) (snd P) zi zr ((keylen * 8) mod 2 ^ 16) in
          let chk := sm2_ka_check 2 zi zr tmpPubI tmpPubR (fst P) (snd P) in
          if list_eq_dec Z.eq_dec chk sin
          then ret (Ret (key, sm2_ka_check 3 zi zr tmpPubI tmpPubR (fst P) (snd P), true))
          else ret (Ret (key, [], false))
      end.

(* sm2_std.go:1466-1583, sm2_std_ka_responder_step1: key, temporary public key,
   Sinner, Souter, and whether err is nil.  [given] is the argument random
   (None for nil), [random] what rand.Read leaves in the buffer otherwise. *)
Definition sm2_ka_responder_step1 (random : bytes) (idI idR prikey pubR pubI tmpPubI : bytes)
    (given : option bytes) (keylen : Z) : watched (outcome (bytes * bytes * bytes * bytes * bool)) :=
  let fail tmpPub := ret (Ret ([], tmpPub, [], [], false)) in
  if negb (length tmpPubI =? 64)%nat then fail []
  else
    let* on := sm2_IsOnCurve (be2z (firstn 32 tmpPubI)) (be2z (skipn 32 tmpPubI)) in
    if negb on then fail []
    else
      let tmpPri := match given with
                    | None => Some (pad32 (big_bytes (be2z random mod sm2_N)))
                    | Some g => if negb (length g =? 32)%nat then None else Some g
                    end in
      match tmpPri with
      | None => fail []
      | Some tmpPri =>
          let r := be2z tmpPri in
          if (r =? 0) || (sm2_N <=? r) then fail []
          else
            let* R := sm2_ScalarBaseMult tmpPri in
            let tmpPubR := marshal_xy (fst R) (snd R) in
            if negb (length prikey =? 32)%nat then fail tmpPubR
            else if (length pubI <? 32)%nat then ret Panic
            else
              let* P := ka_point prikey tmpPri tmpPubR pubI tmpPubI in
              match ka_ids idI idR pubI pubR with
              | None => fail tmpPubR
              | Some (zi, zr) =>
                  ret (Ret (sm2_ka_kdf (fst P) (snd P) zi zr ((keylen * 8) mod 2 ^ 16), tmpPubR,
                            sm2_ka_check 3 zi zr tmpPubI tmpPubR (fst P) (snd P),
                            sm2_ka_check 2 zi zr tmpPubI tmpPubR (fst P) (snd P), true))
              end
      end.

(* sm2_std.go:1585-1601, sm2_std_ka_responder_step2: whether the error is nil *)
Definition sm2_ka_responder_step2 (si sr : bytes) : bool :=
  if negb (length si =? 32)%nat then false
  else if negb (length sr =? 32)%nat then false
  else if list_eq_dec Z.eq_dec si sr then true else false.

(* sm2_std.go:1607-1647, sm2_std_decompress *)
Definition sm2_decompress : bytes -> option bytes :=
  ec_decompress sm2_P (fun x => x * x * x + sm2_b + sm2_a * x).

(* sm2_std.go:1650-1722, sm2_std_recover_public: the code is that of
   secp256r1.go:77-148 with another curve *)
Definition sm2_recover : bytes -> bytes -> outcome (option bytes) := recover_public sm2_curve sm2_decompress.
