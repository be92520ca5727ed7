(** BLAKE-224/256/384/512 (submission to NIST, version 1.3, section 2) and
    BLAKE2s (RFC 7693), written from the specifications. *)
From Coq Require Import ZArith List Bool.
From Verif Require Import Base Words.
Import ListNotations.
Open Scope Z_scope.

Module BlakeSpec.
Infix "(+)" := Z.lxor (at level 51, left associativity).
Definition get (l : list Z) (i : nat) : Z := nth i l 0.
Definition put (l : list Z) (i : nat) (x : Z) : list Z := firstn i l ++ [x] ++ skipn (S i) l.
(** Rotation of a W-bit word to the right. *)
Definition ror (W x k : Z) : Z := x / 2 ^ k + (x mod 2 ^ k) * 2 ^ (W - k).

(** The ten permutations (the same in BLAKE and BLAKE2). *)
Definition sigma_table : list (list nat) :=
  [[ 0;  1;  2;  3;  4;  5;  6;  7;  8;  9; 10; 11; 12; 13; 14; 15];
   [14; 10;  4;  8;  9; 15; 13;  6;  1; 12;  0;  2; 11;  7;  5;  3];
   [11;  8; 12;  0;  5;  2; 15; 13; 10; 14;  3;  6;  7;  1;  9;  4];
   [ 7;  9;  3;  1; 13; 12; 11; 14;  2;  6;  5; 10;  4;  0; 15;  8];
   [ 9;  0;  5;  7;  2;  4; 10; 15; 14;  1; 11; 12;  6;  8;  3; 13];
   [ 2; 12;  6; 10;  0; 11;  8;  3;  4; 13;  7;  5; 15; 14;  1;  9];
   [12;  5;  1; 15; 14; 13;  4; 10;  0;  7;  6;  3;  9;  2;  8; 11];
   [13; 11;  7; 14; 12;  1;  3;  9;  5;  0; 15;  4;  8;  6;  2; 10];
   [ 6; 15; 14;  9; 11;  3;  0;  8; 12;  2; 13;  7;  1;  4; 10;  5];
   [10;  2;  8;  4;  7;  6;  1;  5; 15; 11;  9; 14;  3; 12; 13;  0]]%nat.
Definition sigma (r k : nat) : nat := nth k (nth (r mod 10) sigma_table []) 0%nat.

(** Word size in bits and the four rotation distances. *)
Record word_par := { wW : Z; wR1 : Z; wR2 : Z; wR3 : Z; wR4 : Z }.
Definition words32 : word_par := {| wW := 32; wR1 := 16; wR2 := 12; wR3 := 8; wR4 := 7 |}.
Definition words64 : word_par := {| wW := 64; wR1 := 32; wR2 := 25; wR3 := 16; wR4 := 11 |}.

(** The function G on positions a, b, c, d of the working vector. *)
Definition G (q : word_par) (x y : Z) (v : list Z) (a b c d : nat) : list Z :=
  let M := 2 ^ wW q in
  let va := (get v a + get v b + x) mod M in
  let vd := ror (wW q) (get v d (+) va) (wR1 q) in
  let vc := (get v c + vd) mod M in
  let vb := ror (wW q) (get v b (+) vc) (wR2 q) in
  let va := (va + vb + y) mod M in
  let vd := ror (wW q) (vd (+) va) (wR3 q) in
  let vc := (vc + vd) mod M in
  let vb := ror (wW q) (vb (+) vc) (wR4 q) in
  put (put (put (put v a va) b vb) c vc) d vd.

(** One round: the columns, then the diagonals.  [X i] and [Y i] are the two
    words that the i-th application of G injects. *)
Definition round (q : word_par) (X Y : nat -> Z) (v : list Z) : list Z :=
  let v := G q (X 0%nat) (Y 0%nat) v 0 4 8 12 in
  let v := G q (X 1%nat) (Y 1%nat) v 1 5 9 13 in
  let v := G q (X 2%nat) (Y 2%nat) v 2 6 10 14 in
  let v := G q (X 3%nat) (Y 3%nat) v 3 7 11 15 in
  let v := G q (X 4%nat) (Y 4%nat) v 0 5 10 15 in
  let v := G q (X 5%nat) (Y 5%nat) v 1 6 11 12 in
  let v := G q (X 6%nat) (Y 6%nat) v 2 7 8 13 in
  G q (X 7%nat) (Y 7%nat) v 3 4 9 14.

(** ** BLAKE *)
Record variant := {
  v_words : word_par;
  v_bytes : nat;            (* bytes per word *)
  v_rounds : nat;
  v_c : list Z;             (* constants: the first digits of pi *)
  v_iv : list Z;
  v_out : nat;              (* words of output *)
  v_bit : Z                 (* the bit before the length: 1 for 256 and 512, 0 for 224 and 384 *)
}.
Definition pi32 : list Z :=
  [0x243F6A88; 0x85A308D3; 0x13198A2E; 0x03707344; 0xA4093822; 0x299F31D0; 0x082EFA98; 0xEC4E6C89;
   0x452821E6; 0x38D01377; 0xBE5466CF; 0x34E90C6C; 0xC0AC29B7; 0xC97C50DD; 0x3F84D5B5; 0xB5470917].
Definition pi64 : list Z :=
  [0x243F6A8885A308D3; 0x13198A2E03707344; 0xA4093822299F31D0; 0x082EFA98EC4E6C89;
   0x452821E638D01377; 0xBE5466CF34E90C6C; 0xC0AC29B7C97C50DD; 0x3F84D5B5B5470917;
   0x9216D5D98979FB1B; 0xD1310BA698DFB5AC; 0x2FFD72DBD01ADFB7; 0xB8E1AFED6A267E96;
   0xBA7C9045F12C7F99; 0x24A19947B3916CF7; 0x0801F2E2858EFC16; 0x636920D871574E69].
Definition blake256 : variant := {| v_words := words32; v_bytes := 4; v_rounds := 14; v_c := pi32;
  v_iv := [0x6A09E667; 0xBB67AE85; 0x3C6EF372; 0xA54FF53A; 0x510E527F; 0x9B05688C; 0x1F83D9AB; 0x5BE0CD19];
  v_out := 8; v_bit := 1 |}.
Definition blake224 : variant := {| v_words := words32; v_bytes := 4; v_rounds := 14; v_c := pi32;
  v_iv := [0xC1059ED8; 0x367CD507; 0x3070DD17; 0xF70E5939; 0xFFC00B31; 0x68581511; 0x64F98FA7; 0xBEFA4FA4];
  v_out := 7; v_bit := 0 |}.
Definition blake512 : variant := {| v_words := words64; v_bytes := 8; v_rounds := 16; v_c := pi64;
  v_iv := [0x6A09E667F3BCC908; 0xBB67AE8584CAA73B; 0x3C6EF372FE94F82B; 0xA54FF53A5F1D36F1;
           0x510E527FADE682D1; 0x9B05688C2B3E6C1F; 0x1F83D9ABFB41BD6B; 0x5BE0CD19137E2179];
  v_out := 8; v_bit := 1 |}.
Definition blake384 : variant := {| v_words := words64; v_bytes := 8; v_rounds := 16; v_c := pi64;
  v_iv := [0xCBBB9D5DC1059ED8; 0x629A292A367CD507; 0x9159015A3070DD17; 0x152FECD8F70E5939;
           0x67332667FFC00B31; 0x8EB44A8768581511; 0xDB0C2E0D64F98FA7; 0x47B5481DBEFA4FA4];
  v_out := 6; v_bit := 0 |}.

Section Variant.
Variable V : variant.
Let q := v_words V.
Let W := wW q.
Let c (i : nat) : Z := get (v_c V) i.
Definition block_bytes : nat := 16 * v_bytes V.

(** Compression of a block with words m, under a salt s and a counter t. *)
Definition message_words (b : bytes) : list Z := map be2z (blocks (v_bytes V) 16 b).
Definition the_round (m : list Z) (v : list Z) (r : nat) : list Z :=
  round q (fun i => get m (sigma r (2 * i)) (+) c (sigma r (2 * i + 1)))
          (fun i => get m (sigma r (2 * i + 1)) (+) c (sigma r (2 * i))) v.
Definition compress (h s : list Z) (t : Z) (b : bytes) : list Z :=
  let t0 := t mod 2 ^ W in
  let t1 := (t / 2 ^ W) mod 2 ^ W in
  let v := h ++ [get s 0 (+) c 0; get s 1 (+) c 1; get s 2 (+) c 2; get s 3 (+) c 3;
                 t0 (+) c 4; t0 (+) c 5; t1 (+) c 6; t1 (+) c 7] in
  let v := fold_left (the_round (message_words b)) (seq 0 (v_rounds V)) v in
  map (fun i => get h i (+) get s (i mod 4) (+) get v i (+) get v (i + 8)) (seq 0 8).

(** Padding: a one bit, the least number of zero bits after which one more bit
    and the two-word length complete a block, that bit (v_bit), the bit length.
    In bytes: [k] bytes separate the message from the byte that holds v_bit. *)
Definition padded (m : bytes) : bytes :=
  let len := Z.of_nat (length m) in
  let B := Z.of_nat block_bytes in
  let k := Z.to_nat ((B - 2 * Z.of_nat (v_bytes V) - 1 - len) mod B) in
  m ++ (match k with
        | O => [0x80 + v_bit V]
        | S k' => [0x80] ++ repeat 0 k' ++ [v_bit V]
        end) ++ z2be (2 * v_bytes V) (8 * len).

(** The counter of block i: the number of message bits hashed so far, this block
    included; 0 for a block that holds no message bit. *)
Definition counter (len : Z) (i : nat) : Z :=
  let B := 8 * Z.of_nat block_bytes in
  if 8 * len <=? B * Z.of_nat i then 0 else Z.min (8 * len) (B * (Z.of_nat i + 1)).
Fixpoint iterate (len : Z) (s : list Z) (i : nat) (bl : list bytes) (h : list Z) : list Z :=
  match bl with
  | [] => h
  | b :: bl => iterate len s (S i) bl (compress h s (counter len i) b)
  end.
Definition hash (s : list Z) (m : bytes) : bytes :=
  concat (map (z2be (v_bytes V)) (firstn (v_out V)
    (iterate (Z.of_nat (length m)) s 0 (full_blocks block_bytes (padded m)) (v_iv V)))).
End Variant.
Definition no_salt : list Z := [0; 0; 0; 0].
Definition salt_words (V : variant) (s : bytes) : list Z := map be2z (blocks (v_bytes V) 4 s).

(** ** BLAKE2s (RFC 7693 sections 3.1 to 3.3) *)
Definition iv2 : list Z :=
  [0x6A09E667; 0xBB67AE85; 0x3C6EF372; 0xA54FF53A; 0x510E527F; 0x9B05688C; 0x1F83D9AB; 0x5BE0CD19].
Definition words2 (b : bytes) : list Z := map le2z (blocks 4 16 b).
(** The compression function F with offset counter t and final block flag f. *)
Definition F (h : list Z) (b : bytes) (t : Z) (f : bool) : list Z :=
  let m := words2 b in
  let v := h ++ [get iv2 0; get iv2 1; get iv2 2; get iv2 3;
                 get iv2 4 (+) (t mod 2 ^ 32); get iv2 5 (+) ((t / 2 ^ 32) mod 2 ^ 32);
                 if f then get iv2 6 (+) 0xFFFFFFFF else get iv2 6; get iv2 7] in
  let v := fold_left (fun v r => round words32 (fun i => get m (sigma r (2 * i))) (fun i => get m (sigma r (2 * i + 1))) v)
             (seq 0 10) v in
  map (fun i => get h i (+) get v i (+) get v (i + 8)) (seq 0 8).
(** Every block but the last. *)
Fixpoint loop2 (i : Z) (bl : list bytes) (h : list Z) : list Z :=
  match bl with
  | [] => h
  | b :: bl => loop2 (i + 1) bl (F h b (64 * (i + 1)) false)
  end.
(** [data] is cut into blocks of which the last, never empty unless [data] is, is
    padded with zeros; kk is the length of the key, nn that of the digest. *)
Definition hash2s_data (kk nn : Z) (m : bytes) : bytes :=
  let n := ((length m - 1) / 64)%nat in               (* blocks before the last *)
  let last := skipn (64 * n) m in
  let h0 := [get iv2 0 (+) 0x01010000 (+) (kk * 2 ^ 8) (+) nn] ++ skipn 1 iv2 in
  let h := loop2 0 (blocks 64 n m) h0 in
  let h := F h (last ++ repeat 0 (64 - length last)) (Z.of_nat (length m)) true in
  firstn (Z.to_nat nn) (concat (map (fun w => rev (z2be 4 w)) h)).
(** A key, padded to a block, comes before the message. *)
Definition key_block (key : bytes) : bytes :=
  if Nat.eqb (length key) 0 then [] else key ++ repeat 0 (64 - length key).
Definition mac2s (nn : Z) (key m : bytes) : bytes := hash2s_data (Z.of_nat (length key)) nn (key_block key ++ m).
Definition hash2s (nn : Z) (m : bytes) : bytes := mac2s nn [] m.
End BlakeSpec.
