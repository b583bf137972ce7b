(** Specification vocabulary for Base58Check, independent of the code. *)
From Coq Require Import ZArith List.
From Verif Require Import Go.
Import ListNotations.
Open Scope Z_scope.

(** A checksum hash maps byte strings to byte strings of at least 4 bytes. *)
Definition hash_ok (H : bytes -> bytes) : Prop :=
  forall d, is_bytes d -> is_bytes (H d) /\ (4 <= length (H d))%nat.

(** The data that Base58Check text must carry: payload, then the first four bytes of its hash. *)
Definition checked (H : bytes -> bytes) (payload : bytes) : bytes := payload ++ firstn 4 (H payload).
