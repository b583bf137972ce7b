(** A toy hash, used only in examples showing that hypotheses can be met. *)
From Coq Require Import ZArith List Lia.
From Verif Require Import Go GoFacts Base58CheckSpec.
Import ListNotations.
Open Scope Z_scope.
Definition toy_hash (d : bytes) : bytes :=
  be_bytes 32 (Z.shiftl (fold_left (fun a b => (a * 31 + b) mod 65521) d 7) 234).
Lemma toy_hash_ok : hash_ok toy_hash.
Proof.
  intros d _. split; [apply be_bytes_is_bytes|]. unfold toy_hash. rewrite be_bytes_length. lia.
Qed.
