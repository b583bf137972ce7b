(** The Monero text format: each 8-byte block is an 11-digit base-58 number, the final 5-byte block a
    7-digit one. *)
From Coq Require Import ZArith List.
From Verif Require Import Go Base58Spec Digits58.
Import ListNotations.
Open Scope Z_scope.

(** What the encoder must produce for a byte string of 8k+5 bytes. *)
Inductive monero_text (rs : list Z) : bytes -> list Z -> Prop :=
| text_last b : length b = 5%nat -> monero_text rs b (map (symbol rs) (digits58 7 (positional 256 b)))
| text_block b r t : length b = 8%nat -> monero_text rs r t ->
    monero_text rs (b ++ r) (map (symbol rs) (digits58 11 (positional 256 b)) ++ t).

(** What the decoder reads: for each group of 11 (finally 7) digits the low 8 (5) bytes of its value. *)
Inductive monero_reads (rs : list Z) : list Z -> bytes -> Prop :=
| reads_last ds : length ds = 7%nat -> Forall (fun d => 0 <= d < 58) ds ->
    monero_reads rs (map (symbol rs) ds) (be_bytes 5 (positional 58 ds))
| reads_block ds s b : length ds = 11%nat -> Forall (fun d => 0 <= d < 58) ds -> monero_reads rs s b ->
    monero_reads rs (map (symbol rs) ds ++ s) (be_bytes 8 (positional 58 ds) ++ b).
