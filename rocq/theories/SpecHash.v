(** RFC 2104, and what a hash.Hash promises over a history of calls. *)
From Coq Require Import ZArith List Bool.
From Verif Require Import Base.
Import ListNotations.
Open Scope Z_scope.

Module HashSpec.
(** HMAC over the hash h with blocks of B bytes. *)
Definition hmac (h : bytes -> bytes) (B : nat) (key text : bytes) : bytes :=
  let k := if Nat.ltb B (length key) then h key else key in
  let k := k ++ repeat 0 (B - length k) in
  let pad c := map (fun b => Z.lxor b c) k in
  h (pad 0x5c ++ h (pad 0x36 ++ text)).

(** The calls on one hash object. *)
Inductive call := Write (p : bytes) | Sum (inp : bytes) | Reset.
(** The results of the Sums in a history, m being what has been written since the
    last Reset: each appends the digest of m to its argument. *)
Fixpoint answers (h : bytes -> bytes) (m : bytes) (cs : list call) : list bytes :=
  match cs with
  | [] => []
  | Write p :: cs => answers h (m ++ p) cs
  | Sum inp :: cs => (inp ++ h m) :: answers h m cs
  | Reset :: cs => answers h [] cs
  end.
(** The messages whose digests are asked for. *)
Fixpoint summed (m : bytes) (cs : list call) : list bytes :=
  match cs with
  | [] => []
  | Write p :: cs => summed (m ++ p) cs
  | Sum inp :: cs => m :: summed m cs
  | Reset :: cs => summed [] cs
  end.
Definition call_ok (c : call) : Prop := match c with Write p => bytes_ok p | Sum p => bytes_ok p | Reset => True end.
End HashSpec.
