(** More facts about the Go prelude, used by the transaction codecs. *)
From Coq Require Import ZArith List Bool Lia ZifyBool ZifyNat.
From Verif Require Import Go GoFacts.
Import ListNotations.
Open Scope Z_scope.

Lemma slice_from_post {A} (a b : list A) i : i = zlen a -> slice_from (a ++ b) i = Ok b.
Proof. intros ->. unfold slice_from. apply slice_post; [reflexivity|apply zlen_app]. Qed.
Lemma slice_from_cons {A} (x : A) l : slice_from (x :: l) 1 = Ok l.
Proof. apply (slice_from_post [x] l). reflexivity. Qed.
