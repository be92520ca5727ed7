(** /repo/hashset.go: Hash and Hmac.  The hashes of the standard library and of
    golang.org/x/crypto are parameters ([stdhash]); those of /repo are the models. *)
From Coq Require Import ZArith List Bool.
From Verif Require Import Base Words ModelBlakeCode ModelBlake ModelSha3Code ModelSha3 ModelSM3.
Import ListNotations.
Open Scope Z_scope.

(** A hash.Hash: New, Write, Sum and Reset.  Sum returns the state it leaves
    behind.  Write reports no error in any implementation used. *)
Record himpl := MkImpl {
  hst : Type;
  hnew : hst;
  hwrite : hst -> bytes -> outcome hst;
  hsum : hst -> bytes -> outcome (hst * bytes);
  hreset : hst -> hst;
  hbs : nat                       (* BlockSize() *)
}.

(** A hash of the standard library: a function of everything written. *)
Definition std_impl (f : bytes -> bytes) (bs : nat) : himpl :=
  MkImpl bytes [] (fun m p => Ret (m ++ p)) (fun m inp => Ret (m, inp ++ f m)) (fun _ => []) bs.
(* sm3/sm3.go *)
Definition sm3_impl : himpl :=
  MkImpl sm3 sm3_new (fun s p => Ret (sm3_write s p)) (fun s inp => Ret (sm3_sum s inp)) (fun _ => sm3_new) 64.
(* sha3/sha3.go: Sum works on a clone *)
Definition of_option {A} (o : option A) : outcome A := match o with Some a => Ret a | None => Panic end.
Definition sha3_impl (d : sponge) : himpl :=
  MkImpl sponge d (fun s p => of_option (kwrite s p))
    (fun s inp => match ksum s inp with Some o => Ret (s, o) | None => Panic end) kreset (k_rate d).
(* blake256, blake512: Sum works on a copy *)
Definition blake_impl (P : blake_params) (d : digest) : himpl :=
  MkImpl digest d (fun s p => Ret (bwrite P s p)) (fun s inp => Ret (s, bsum P s inp)) (breset P) (bp_block P).
(* blake2s: Sum works on a copy *)
Definition blake2s_impl (d : mac2) : himpl :=
  MkImpl mac2 d (fun s p => Ret (mwrite2s s p)) (fun s inp => Ret (s, msum2s s inp)) mreset2s 64.

Definition bindo {A B} (o : outcome A) (f : A -> outcome B) : outcome B := match o with Ret a => f a | Panic => Panic end.

(** h := New(); h.Write(data); h.Sum(nil) *)
Definition once (I : himpl) (data : bytes) : outcome bytes :=
  bindo (hwrite I (hnew I) data) (fun s => bindo (hsum I s []) (fun r => Ret (snd r))).

Record stdhash := {
  std_md4 : bytes -> bytes; std_md5 : bytes -> bytes; std_sha1 : bytes -> bytes;
  std_sha256 : bytes -> bytes; std_sha512 : bytes -> bytes; std_ripemd160 : bytes -> bytes;
  std_blake2b : Z -> option (bytes -> bytes)     (* blake2b.New(size, nil); None is the error *)
}.

(* profile.go, hash identifiers *)
Definition HASH_ALG_SHA1 := 0xA0000000.
Definition HASH_ALG_SHA3_256 := 0xA0000001.
Definition HASH_ALG_SHA256 := 0xA0000002.
Definition HASH_ALG_SHA512 := 0xA0000003.
Definition HASH_ALG_MD4 := 0xA0000004.
Definition HASH_ALG_MD5 := 0xA0000005.
Definition HASH_ALG_RIPEMD160 := 0xA0000006.
Definition HASH_ALG_BLAKE2B := 0xA0000007.
Definition HASH_ALG_BLAKE2S := 0xA0000008.
Definition HASH_ALG_SM3 := 0xA0000009.
Definition HASH_ALG_DOUBLE_SHA256 := 0xA000000A.
Definition HASH_ALG_HASH160 := 0xA000000B.
Definition HASH_ALG_BLAKE256 := 0xA000000C.
Definition HASH_ALG_BLAKE512 := 0xA000000D.
Definition HASH_ALG_KECCAK256 := 0xA000000E.
Definition HASH_ALG_KECCAK256_RIPEMD160 := 0xA000000F.
Definition HASH_ALG_SHA3_256_RIPEMD160 := 0xA0000010.
Definition HASH_ALG_KECCAK512 := 0xA0000011.
Definition HASH_ALG_SHA3_512 := 0xA0000012.
Definition HMAC_SHA256_ALG := 0x50505050.
Definition HMAC_SHA512_ALG := 0x50505051.
Definition HMAC_SM3_ALG := 0x50505052.

Section Hash.
Variable H : stdhash.
Definition sha256_impl := std_impl (std_sha256 H) 64.
Definition sha512_impl := std_impl (std_sha512 H) 128.
Definition ripemd160_impl := std_impl (std_ripemd160 H) 64.
Definition some_of (o : outcome bytes) : outcome (option bytes) := bindo o (fun d => Ret (Some d)).
(** A hash, then a second one over its digest. *)
Definition twice (I J : himpl) (data : bytes) : outcome (option bytes) :=
  some_of (bindo (once I data) (once J)).

(** hashset.go:34-246.  [None] is nil. *)
Definition Hash (data : bytes) (digestLen typeChoose : Z) : outcome (option bytes) :=
  if typeChoose =? HASH_ALG_MD4 then some_of (once (std_impl (std_md4 H) 64) data)
  else if typeChoose =? HASH_ALG_MD5 then some_of (once (std_impl (std_md5 H) 64) data)
  else if typeChoose =? HASH_ALG_SHA1 then some_of (once (std_impl (std_sha1 H) 64) data)
  else if typeChoose =? HASH_ALG_RIPEMD160 then some_of (once ripemd160_impl data)
  else if typeChoose =? HASH_ALG_HASH160 then twice sha256_impl ripemd160_impl data
  else if typeChoose =? HASH_ALG_KECCAK256_RIPEMD160 then twice (sha3_impl NewKeccak256) ripemd160_impl data
  else if typeChoose =? HASH_ALG_SHA3_256_RIPEMD160 then twice (sha3_impl New256) ripemd160_impl data
  else if typeChoose =? HASH_ALG_SHA256 then some_of (once sha256_impl data)
  else if typeChoose =? HASH_ALG_DOUBLE_SHA256 then twice sha256_impl sha256_impl data
  else if typeChoose =? HASH_ALG_SM3 then some_of (once sm3_impl data)
  else if typeChoose =? HASH_ALG_KECCAK256 then some_of (once (sha3_impl NewKeccak256) data)
  else if typeChoose =? HASH_ALG_SHA3_256 then some_of (once (sha3_impl New256) data)
  else if typeChoose =? HASH_ALG_BLAKE256 then some_of (once (blake_impl blake256_params (bnew blake256_params false)) data)
  else if typeChoose =? HASH_ALG_SHA512 then some_of (once sha512_impl data)
  else if typeChoose =? HASH_ALG_SHA3_512 then some_of (once (sha3_impl New512) data)
  else if typeChoose =? HASH_ALG_KECCAK512 then some_of (once (sha3_impl NewKeccak512) data)
  else if typeChoose =? HASH_ALG_BLAKE512 then some_of (once (blake_impl blake512_params (bnew blake512_params false)) data)
  else if typeChoose =? HASH_ALG_BLAKE2B then
    match std_blake2b H digestLen with
    | Some f => some_of (once (std_impl f 128) data)
    | None => Ret None
    end
  else if typeChoose =? HASH_ALG_BLAKE2S then
    match new2s (u8 digestLen) [] with
    | Some d => some_of (once (blake2s_impl d) data)
    | None => Panic
    end
  else Ret None.

(** crypto/hmac of the Go library: New, Write, Sum(nil), as it calls the methods of
    the underlying hash. *)
Definition xorc (c : Z) (l : bytes) : bytes := map (fun b => Z.lxor b c) l.
Definition go_hmac (I : himpl) (key data : bytes) : outcome bytes :=
  let outer := hnew I in
  let inner := hnew I in
  let bs := hbs I in
  bindo (if Nat.ltb bs (length key) then
           bindo (hwrite I outer key) (fun outer => hsum I outer [])
         else Ret (outer, key)) (fun ok =>
  let '(outer, key) := ok in
  let pad := firstn bs key ++ repeat 0 (bs - length key) in     (* copy into a zeroed array *)
  bindo (hwrite I inner (xorc 0x36 pad)) (fun inner =>
  bindo (hwrite I inner data) (fun inner =>
  bindo (hsum I inner []) (fun r =>
  bindo (hwrite I (hreset I outer) (xorc 0x5c pad)) (fun outer =>
  bindo (hwrite I outer (snd r)) (fun outer =>
  bindo (hsum I outer []) (fun r => Ret (snd r)))))))).

(** hashset.go:248-271 *)
Definition Hmac (key data : bytes) (typeChoose : Z) : outcome (option bytes) :=
  if typeChoose =? HMAC_SHA256_ALG then some_of (go_hmac sha256_impl key data)
  else if typeChoose =? HMAC_SM3_ALG then some_of (go_hmac sm3_impl key data)
  else if typeChoose =? HMAC_SHA512_ALG then some_of (go_hmac sha512_impl key data)
  else Ret None.
End Hash.
