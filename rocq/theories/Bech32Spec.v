(** Vocabulary for the bech32-family properties. Nothing here refers to the model. *)
From Coq Require Import ZArith List Bool.
Import ListNotations.
Open Scope Z_scope.

(** Number of positions at which two strings differ. *)
Fixpoint hamming (a b : list Z) : nat :=
  match a, b with
  | x :: r, y :: t => ((if Z.eqb x y then 0 else 1) + hamming r t)%nat
  | _, _ => 0%nat
  end.

(** The characters [qpzry9x8gf2tvdw0s3jn54khce6mua7l], as byte values. *)
Definition is_bech32_char (c : Z) : Prop :=
  In c [113;112;122;114;121;57;120;56;103;102;50;116;118;100;119;48;115;51;106;110;53;52;107;104;99;101;54;109;117;97;55;108].

(** A human-readable part: non-empty, lower-case letters only. (The code refuses digits before
    the separator, see [bech32_digit_in_prefix_rejected].) *)
Definition lower_prefix (p : list Z) : Prop := p <> [] /\ Forall (fun c => 97 <= c <= 122) p.

(** A human-readable part for the bech32m and bytom codecs: printable ASCII without upper-case letters. *)
Definition hrp_ok (h : list Z) : Prop := h <> [] /\ Forall (fun c => 33 <= c <= 126 /\ ~ (65 <= c <= 90)) h.
