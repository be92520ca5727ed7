(** Model of the packages blake256, blake512 and blake2s.  Words are integers
    below 2^32 or 2^64.  blake256.go and blake512.go are the same text up to
    constants: they are modelled once, over a record of those constants. *)
From Coq Require Import ZArith List Bool.
From Verif Require Import Base Words ModelBlakeCode.
Import ListNotations.
Open Scope Z_scope.

(** The sixteen local variables as a list. *)
Fixpoint upd (l : list Z) (i : nat) (x : Z) : list Z :=
  match l, i with
  | [], _ => []
  | _ :: t, O => x :: t
  | y :: t, S i' => y :: upd t i' x
  end.
Definition vget (l : list Z) (i : nat) : Z := nth i l 0.

(** One source line (the shapes are those of [binstr]); W is the word size. *)
Definition bexec (W : Z) (m cst : list Z) (v : list Z) (c : binstr) : list Z :=
  match c with
  | AddMC a i k => upd v a ((vget v a + Z.lxor (vget m i) (vget cst k)) mod 2 ^ W)
  | AddM a i => upd v a ((vget v a + vget m i) mod 2 ^ W)
  | AddV a b => upd v a ((vget v a + vget v b) mod 2 ^ W)
  | XorV a b => upd v a (Z.lxor (vget v a) (vget v b))
  | Ror a r => upd v a (Z.lor (Z.shiftl (vget v a) (W - Z.of_nat r) mod 2 ^ W) (Z.shiftr (vget v a) (Z.of_nat r)))
  end.
Definition brun (W : Z) (m cst : list Z) (code : list binstr) (v : list Z) : list Z :=
  fold_left (bexec W m cst) code v.

(** The constants in which blake256 and blake512 differ. *)
Record blake_params := {
  bp_W : Z;                 (* word size in bits *)
  bp_wb : nat;              (* word size in bytes *)
  bp_code : list binstr;    (* the rounds *)
  bp_cst : list Z;          (* cst0 .. cst15 *)
  bp_iv : list Z;           (* iv256, iv512 *)
  bp_iv_small : list Z;     (* iv224, iv384 *)
  bp_full : Z;              (* 256, 512 *)
  bp_small : Z;             (* 224, 384 *)
  bp_block : nat;           (* BlockSize *)
  bp_edge : nat;            (* 55, 111: the largest tail that needs no extra block *)
  bp_bits : Z;              (* 512, 1024 *)
  bp_edge_bits : Z;         (* 440, 888 *)
  bp_len_bits : Z;          (* 64, 128 *)
  bp_len_bytes : nat;       (* 8, 16 *)
  bp_t_high : Z -> Z        (* what is xored into v14 and v15: d.t >> 32, or 0 *)
}.

(* blake256/blake256.go:21-23, 36-43, 100-129; blake256block.go:17-34 *)
Definition blake256_params : blake_params := {|
  bp_W := 32; bp_wb := 4; bp_code := blake256_code;
  bp_cst := [0x243F6A88; 0x85A308D3; 0x13198A2E; 0x03707344; 0xA4093822; 0x299F31D0; 0x082EFA98; 0xEC4E6C89;
             0x452821E6; 0x38D01377; 0xBE5466CF; 0x34E90C6C; 0xC0AC29B7; 0xC97C50DD; 0x3F84D5B5; 0xB5470917];
  bp_iv := [0x6A09E667; 0xBB67AE85; 0x3C6EF372; 0xA54FF53A; 0x510E527F; 0x9B05688C; 0x1F83D9AB; 0x5BE0CD19];
  bp_iv_small := [0xC1059ED8; 0x367CD507; 0x3070DD17; 0xF70E5939; 0xFFC00B31; 0x68581511; 0x64F98FA7; 0xBEFA4FA4];
  bp_full := 256; bp_small := 224;
  bp_block := 64; bp_edge := 55; bp_bits := 512; bp_edge_bits := 440; bp_len_bits := 64; bp_len_bytes := 8;
  bp_t_high := fun t => Z.shiftr t 32 |}.

(* blake512/blake512.go:19-21, 34-45, 103-132; blake512block.go:17-34, 56-59 *)
Definition blake512_params : blake_params := {|
  bp_W := 64; bp_wb := 8; bp_code := blake512_code;
  bp_cst := [0x243F6A8885A308D3; 0x13198A2E03707344; 0xA4093822299F31D0; 0x082EFA98EC4E6C89;
             0x452821E638D01377; 0xBE5466CF34E90C6C; 0xC0AC29B7C97C50DD; 0x3F84D5B5B5470917;
             0x9216D5D98979FB1B; 0xD1310BA698DFB5AC; 0x2FFD72DBD01ADFB7; 0xB8E1AFED6A267E96;
             0xBA7C9045F12C7F99; 0x24A19947B3916CF7; 0x0801F2E2858EFC16; 0x636920D871574E69];
  bp_iv := [0x6A09E667F3BCC908; 0xBB67AE8584CAA73B; 0x3C6EF372FE94F82B; 0xA54FF53A5F1D36F1;
            0x510E527FADE682D1; 0x9B05688C2B3E6C1F; 0x1F83D9ABFB41BD6B; 0x5BE0CD19137E2179];
  bp_iv_small := [0xCBBB9D5DC1059ED8; 0x629A292A367CD507; 0x9159015A3070DD17; 0x152FECD8F70E5939;
                  0x67332667FFC00B31; 0x8EB44A8768581511; 0xDB0C2E0D64F98FA7; 0x47B5481DBEFA4FA4];
  bp_full := 512; bp_small := 384;
  bp_block := 128; bp_edge := 111; bp_bits := 1024; bp_edge_bits := 888; bp_len_bits := 128; bp_len_bytes := 16;
  bp_t_high := fun _ => 0 |}.

(** blake256.go:23-31, blake512.go:23-31.  The array x with its fill count nx is
    the list of its first nx bytes: the rest is never read. *)
Record digest := MkDigest {
  d_size : Z;            (* hashSize *)
  d_h : list Z;
  d_s : list Z;          (* salt *)
  d_t : Z;
  d_nullt : bool;
  d_x : bytes
}.
Definition set_t (d : digest) (t : Z) : digest := MkDigest (d_size d) (d_h d) (d_s d) (u64 t) (d_nullt d) (d_x d).
Definition set_null (d : digest) : digest := MkDigest (d_size d) (d_h d) (d_s d) (d_t d) true (d_x d).
Definition set_x (d : digest) (x : bytes) : digest := MkDigest (d_size d) (d_h d) (d_s d) (d_t d) (d_nullt d) x.

Section Blake.
Variable P : blake_params.

(** blake256block.go:57-74, blake512block.go:60-68: big-endian words. *)
Definition bwords (p : bytes) : list Z :=
  map (fun i => be2z (firstn (bp_wb P) (skipn (bp_wb P * i) p))) (seq 0 16).

(** blake256block.go:41-1677, blake512block.go:41-1887: one turn of the loop. *)
Definition bblock (d : digest) (p : bytes) : digest :=
  let h := d_h d in
  let s := d_s d in
  let cst := bp_cst P in
  let t := u64 (d_t d + bp_bits P) in
  let low := t mod 2 ^ bp_W P in
  let high := bp_t_high P t in
  let v := firstn 8 h ++
    [Z.lxor (vget cst 0) (vget s 0); Z.lxor (vget cst 1) (vget s 1);
     Z.lxor (vget cst 2) (vget s 2); Z.lxor (vget cst 3) (vget s 3);
     if d_nullt d then vget cst 4 else Z.lxor (vget cst 4) low;
     if d_nullt d then vget cst 5 else Z.lxor (vget cst 5) low;
     if d_nullt d then vget cst 6 else Z.lxor (vget cst 6) high;
     if d_nullt d then vget cst 7 else Z.lxor (vget cst 7) high] in
  let v := brun (bp_W P) (bwords p) cst (bp_code P) v in
  let h := map (fun i => Z.lxor (vget h i) (Z.lxor (Z.lxor (vget v i) (vget v (i + 8))) (vget s (i mod 4)))) (seq 0 8) in
  MkDigest (d_size d) h s t (d_nullt d) (d_x d).

(** The loop [for len(p) >= BlockSize]; [fuel] bounds its turns and is always
    the length of p. *)
Fixpoint bblocks (fuel : nat) (d : digest) (p : bytes) : digest :=
  match fuel with
  | O => d
  | S f => if Nat.leb (bp_block P) (length p) then bblocks f (bblock d p) (skipn (bp_block P) p) else d
  end.
Definition bblock_all (d : digest) (p : bytes) : digest := bblocks (length p) d p.

(** blake256.go:61-84, blake512.go:63-86 *)
Definition bwrite (d : digest) (p : bytes) : digest :=
  let BS := bp_block P in
  let nx := length (d_x d) in
  let '(d, p) :=
    if Nat.ltb 0 nx then
      let n := Nat.min (length p) (BS - nx) in
      let x := d_x d ++ firstn (BS - nx) p in
      ((if Nat.eqb (length x) BS then set_x (bblock_all d x) [] else set_x d x), skipn n p)
    else (d, p) in
  let '(d, p) :=
    if Nat.leb BS (length p) then
      let n := (length p / BS * BS)%nat in (bblock_all d (firstn n p), skipn n p)
    else (d, p) in
  if Nat.ltb 0 (length p) then set_x d (firstn BS p) else d.

(** blake256.go:91-98, blake512.go:93-101: the 64-bit length, big endian, with
    leading zero bytes for blake512. *)
Definition blen (l : Z) : bytes :=
  repeat 0 (bp_len_bytes P - 8) ++
  [Z.land (Z.shiftr l 56) 255; Z.land (Z.shiftr l 48) 255; Z.land (Z.shiftr l 40) 255; Z.land (Z.shiftr l 32) 255;
   Z.land (Z.shiftr l 24) 255; Z.land (Z.shiftr l 16) 255; Z.land (Z.shiftr l 8) 255; Z.land l 255].

(** [pad[a:b]] for pad = 0x80, 0, 0, … *)
Definition bpad (a b : nat) : bytes := firstn (b - a) (skipn a (0x80 :: repeat 0 200)).

(** blake256.go:86-142, blake512.go:88-149.  Sum works on a copy and appends to in. *)
Definition bsum (d0 : digest) (inp : bytes) : bytes :=
  let nx := length (d_x d0) in
  let nxb := Z.shiftl (Z.of_nat nx) 3 in
  let E := bp_edge P in
  let ln := blen (u64 (d_t d0 + nxb)) in
  let small := d_size d0 =? bp_small P in
  let d :=
    if Nat.eqb nx E then
      bwrite (set_t d0 (d_t d0 - 8)) [if small then 0x80 else 0x81]
    else
      let d :=
        if Nat.ltb nx E then
          let d := if Nat.eqb nx 0 then set_null d0 else d0 in
          let d := set_t d (d_t d - (bp_edge_bits P - nxb)) in
          bwrite d (bpad 0 (E - nx))
        else
          let d := set_t d0 (d_t d0 - (bp_bits P - nxb)) in
          let d := bwrite d (bpad 0 (bp_block P - nx)) in
          let d := set_t d (d_t d - bp_edge_bits P) in
          let d := bwrite d (bpad 1 (E + 1)) in
          set_null d in
      let d := bwrite d [if small then 0x00 else 0x01] in
      set_t d (d_t d - 8) in
  let d := set_t d (d_t d - bp_len_bits P) in
  let d := bwrite d ln in
  inp ++ concat (map (z2be (bp_wb P)) (firstn (Z.to_nat (d_size d / bp_W P)) (d_h d))).

(** blake256.go:144-152, blake512.go:151-161: the salt; its length is checked by
    the callers below. *)
Definition bsalt (s : bytes) : list Z :=
  map (fun i => be2z (firstn (bp_wb P) (skipn (bp_wb P * i) s))) (seq 0 4).

(** New, NewSalt, New224/New384 and their salted variants (blake256.go:154-183,
    blake512.go:163-194): [None] is the panic on a salt of the wrong length. *)
Definition bnew (small : bool) : digest :=
  MkDigest (if small then bp_small P else bp_full P) (if small then bp_iv_small P else bp_iv P) [0; 0; 0; 0] 0 false [].
Definition bnew_salt (small : bool) (salt : bytes) : option digest :=
  if Nat.eqb (length salt) (4 * bp_wb P) then
    Some (MkDigest (d_size (bnew small)) (d_h (bnew small)) (bsalt salt) 0 false [])
  else None.

(** blake256.go:45-55, blake512.go:47-57.  x keeps its bytes, nx = 0. *)
Definition breset (d : digest) : digest :=
  MkDigest (d_size d) (if d_size d =? bp_small P then bp_iv_small P else bp_iv P) (d_s d) 0 false [].
End Blake.

(** ** blake2s *)

(** blake2s.go:31-43.  Salt, Person and Tree of [Config] are nil in New256 and
    NewMAC and are left out, and with them isLastNode. *)
Record digest2 := MkDigest2 {
  e_h : list Z;
  e_t0 : Z; e_t1 : Z;      (* t[0], t[1] *)
  e_f0 : Z; e_f1 : Z;      (* f[0], f[1] *)
  e_x : bytes;             (* x[:nx] *)
  e_size : Z
}.
(* the fields ih, paddedKey and isKeyed *)
Record mac2 := MkMac2 { m_dig : digest2; m_ih : list Z; m_key : bytes; m_keyed : bool }.
(* blake2s.go:45-48 *)
Definition iv2s : list Z :=
  [0x6a09e667; 0xbb67ae85; 0x3c6ef372; 0xa54ff53a; 0x510e527f; 0x9b05688c; 0x1f83d9ab; 0x5be0cd19].

(* block.go:35-39 *)
Definition words2s (p : bytes) : list Z := map (fun i => le2z (firstn 4 (skipn (4 * i) p))) (seq 0 16).

(* block.go:20-1190, one turn *)
Definition block2s (d : digest2) (p : bytes) : digest2 :=
  let h := e_h d in
  let t0 := u32 (e_t0 d + 64) in
  let t1 := if t0 <? 64 then u32 (e_t1 d + 1) else e_t1 d in
  let v := firstn 8 h ++
    [vget iv2s 0; vget iv2s 1; vget iv2s 2; vget iv2s 3;
     Z.lxor (vget iv2s 4) t0; Z.lxor (vget iv2s 5) t1; Z.lxor (vget iv2s 6) (e_f0 d); Z.lxor (vget iv2s 7) (e_f1 d)] in
  let v := brun 32 (words2s p) [] blake2s_code v in
  let h := map (fun i => Z.lxor (vget h i) (Z.lxor (vget v i) (vget v (i + 8)))) (seq 0 8) in
  MkDigest2 h t0 t1 (e_f0 d) (e_f1 d) (e_x d) (e_size d).
Fixpoint blocks2s (fuel : nat) (d : digest2) (p : bytes) : digest2 :=
  match fuel with
  | O => d
  | S f => if Nat.leb 64 (length p) then blocks2s f (block2s d p) (skipn 64 p) else d
  end.
Definition block2s_all (d : digest2) (p : bytes) : digest2 := blocks2s (length p) d p.
Definition set_x2 (d : digest2) (x : bytes) : digest2 :=
  MkDigest2 (e_h d) (e_t0 d) (e_t1 d) (e_f0 d) (e_f1 d) x (e_size d).

(* blake2s.go:183-204 *)
Definition write2s (d : digest2) (p : bytes) : digest2 :=
  let left := (64 - length (e_x d))%nat in
  let '(d, p) :=
    if Nat.ltb left (length p) then
      (set_x2 (block2s_all d (e_x d ++ firstn left p)) [], skipn left p)
    else (d, p) in
  let '(d, p) :=
    if Nat.ltb 64 (length p) then
      let n := (length p / 64 * 64)%nat in
      let n := if Nat.eqb n (length p) then (n - 64)%nat else n in
      (block2s_all d (firstn n p), skipn n p)
    else (d, p) in
  set_x2 d (e_x d ++ firstn (64 - length (e_x d)) p).

(* blake2s.go:206-244: checkSum on a copy; isLastNode is false *)
Definition sum2s (d : digest2) (inp : bytes) : bytes :=
  let dec := u32 (64 - Z.of_nat (length (e_x d))) in
  let t1 := if e_t0 d <? dec then u32 (e_t1 d - 1) else e_t1 d in
  let t0 := u32 (e_t0 d - dec) in
  let x := e_x d ++ repeat 0 (64 - length (e_x d)) in
  let d' := block2s_all (MkDigest2 (e_h d) t0 t1 0xffffffff (e_f1 d) x (e_size d)) x in
  let words := firstn (Z.to_nat ((e_size d - 1) / 4 + 1)) (e_h d') in
  inp ++ firstn (Z.to_nat (e_size d)) (concat (map (fun w => rev (z2be 4 w)) words)).

(* blake2s.go:92-106, 108-152, 160-166: New and NewMAC; [None] is the panic for a
   size above 32 or a key of more than 32 bytes.  len(Key) fits in a byte. *)
Definition new2s (size : Z) (key : bytes) : option mac2 :=
  let size := if size =? 0 then 32 else size in
  if 32 <? size then None
  else if Nat.ltb 32 (length key) then None
  else
    let p := [size; Z.of_nat (length key); 1; 1] ++ repeat 0 60 in
    let d := MkDigest2 (map (fun i => Z.lxor (vget iv2s i) (le2z (firstn 4 (skipn (4 * i) p)))) (seq 0 8)) 0 0 0 0 [] size in
    let keyed := Nat.ltb 0 (length key) in
    let padded := if keyed then key ++ repeat 0 (64 - length key) else repeat 0 64 in
    let d := if keyed then write2s d padded else d in
    Some (MkMac2 d (e_h d) padded keyed).
Definition mwrite2s (m : mac2) (p : bytes) : mac2 := MkMac2 (write2s (m_dig m) p) (m_ih m) (m_key m) (m_keyed m).
(* blake2s.go:206-210.  The copy's paddedKey is cleared, which nothing observes. *)
Definition msum2s (m : mac2) (inp : bytes) : bytes := sum2s (m_dig m) inp.
(* blake2s.go:168-178 *)
Definition mreset2s (m : mac2) : mac2 :=
  let d := MkDigest2 (m_ih m) 0 0 0 0 [] (e_size (m_dig m)) in
  MkMac2 (if m_keyed m then write2s d (m_key m) else d) (m_ih m) (m_key m) (m_keyed m).
