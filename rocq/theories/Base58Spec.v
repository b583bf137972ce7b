(** Specification vocabulary for Base58, independent of the code. *)
From Coq Require Import ZArith List.
From Verif Require Import Go.
Import ListNotations.
Open Scope Z_scope.

(** An alphabet is a string of 58 pairwise distinct ASCII characters. *)
Definition alphabet_ok (rs : list Z) : Prop :=
  length rs = 58%nat /\ NoDup rs /\ is_ascii rs.

(** Number denoted by a digit list, most significant digit first. *)
Definition positional (base : Z) (ds : list Z) : Z :=
  fold_left (fun acc d => acc * base + d) ds 0.

(** The symbol standing for digit [d]. *)
Definition symbol (rs : list Z) (d : Z) : Z := nth (Z.to_nat d) rs 0.

(** [s] is the base-58 numeral of the byte string [b]: one zero symbol per
    leading zero byte, then the digits of the big-endian number without
    leading zero digit. *)
Definition is_base58_of (rs : list Z) (b s : list Z) : Prop :=
  exists n rest ds,
    b = repeat 0 n ++ rest /\ hd 1 rest <> 0 /\
    Forall (fun d => 0 <= d < 58) ds /\ hd 1 ds <> 0 /\
    positional 58 ds = positional 256 rest /\
    s = repeat (symbol rs 0) n ++ map (symbol rs) ds.
