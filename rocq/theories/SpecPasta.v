(** What Poseidon and the Mina signature scheme are, independently of the Go code: field
    elements are residues, points are points of the Pallas curve. *)
Require Import ZArith List.
Require Import Verif.Base Verif.Fp Verif.EC Verif.SpecECDSA.
Import ListNotations.
Open Scope Z_scope.

(** ** Poseidon (Grassi et al., section 2) with full rounds only, exponent 5 and rate 2. *)
Section Poseidon.
Variable p : Z.
(** the round constants and the rows of the MDS matrix *)
Variables (rks mds : list (list (fp p))).
Definition pow5 (x : fp p) : fp p := fp_of p (fval x ^ 5).
Definition add_vec (s k : list (fp p)) : list (fp p) := map (fun c => fp_add (fst c) (snd c)) (combine s k).
Definition dot (s row : list (fp p)) : fp p := fold_right (fun c acc => fp_add (fp_mul (fst c) (snd c)) acc) (fp_of p 0) (combine s row).
Definition mix (s : list (fp p)) : list (fp p) := map (dot s) mds.
(** add the constants, apply the S-box, mix; the last constants are added alone *)
Fixpoint permute (ks : list (list (fp p))) (s : list (fp p)) : list (fp p) :=
  match ks with
  | [] => s
  | [k] => add_vec s k
  | k :: ks => permute ks (mix (map pow5 (add_vec s k)))
  end.
(** two elements are added to the state, which is then permuted; a last single element
    is absorbed alone *)
Fixpoint sponge (s l : list (fp p)) : list (fp p) :=
  match l with
  | [] => permute rks s
  | [x] => permute rks (add_vec s [x; fp_of p 0; fp_of p 0])
  | [x; y] => permute rks (add_vec s [x; y; fp_of p 0])
  | x :: y :: l => sponge (permute rks (add_vec s [x; y; fp_of p 0])) l
  end.
Definition poseidon (iv l : list (fp p)) : fp p := nth 0 (sponge iv l) (fp_of p 0).
End Poseidon.

(** ** Mina signatures: Schnorr with an even-y commitment *)
Section Schnorr.
Variable c : wcurve.
(** the hash, with initial state and the elements before and after the key and r *)
Variable hash : list (fp (w_p c)) -> fp (w_p c).
Variables (before after : list (fp (w_p c))).
Definition challenge (P : pt c) (r : Z) : Z :=
  fval (hash (before ++ [fp_of (w_p c) (px c P); fp_of (w_p c) (py c P); fp_of (w_p c) r] ++ after)).
(** the signature with private key d and nonce k *)
Definition mina_sig (d k : Z) : bytes :=
  let R := w_mul c k (w_G c) in
  let k' := if Z.odd (py c R) then - k else k in
  let e := challenge (w_mul c d (w_G c)) (px c R) in
  z2be 32 (px c R) ++ z2be 32 ((k' + e * d) mod w_n c).
(** [s]G - [e]P has x-coordinate r and an even y-coordinate (0, 0 for infinity) *)
Definition mina_commit (P : pt c) (r s : Z) : pt c :=
  w_add c (w_mul c s (w_G c)) (w_neg c (w_mul c (challenge P r) P)).
Definition mina_valid (P : pt c) (r s : Z) : Prop :=
  px c (mina_commit P r s) = r mod w_p c /\ Z.odd (py c (mina_commit P r s)) = false.
End Schnorr.
