(** Base58Check: final theorems (C05-C07). *)
From Coq Require Import String ZArith List Bool Lia.
From Verif Require Import Go GoFacts Base58Model Base58Spec Base58Proofs Base58Props.
From Verif Require Import Base58CheckModel Base58CheckSpec Base58CheckProofs Toy.
Import ListNotations.
Open Scope Z_scope.

(** C05: round trips. *)
Theorem decode_check_encode_check : forall H rs al prefix hash,
  hash_ok H -> alphabet_ok rs -> new_alphabet rs = Ok al ->
  is_bytes prefix -> is_bytes hash -> length hash = 20%nat ->
  exists s, encode_check al H prefix hash = Ok s /\ decode_check al H s = Ok (prefix, hash).
Proof. intros H rs al p h HH Hrs Hal. apply decode_check_encode with (rs := rs); assumption. Qed.

Theorem decode_check1_encode_check1 : forall H rs al prefix hash,
  hash_ok H -> alphabet_ok rs -> new_alphabet rs = Ok al ->
  is_byte prefix -> is_bytes hash ->
  exists s, encode_check1 al H prefix hash = Ok s /\ decode_check1 al H s = Ok (prefix, hash).
Proof. intros H rs al p h HH Hrs Hal. apply decode_check1_encode with (rs := rs); assumption. Qed.

Theorem decode_check_all_encode_check1 : forall H rs al prefix hash,
  hash_ok H -> alphabet_ok rs -> new_alphabet rs = Ok al ->
  is_byte prefix -> is_bytes hash ->
  exists s, encode_check1 al H prefix hash = Ok s /\
    decode_check_all al H s = Ok (checked H (prefix :: hash)).
Proof. intros H rs al p h HH Hrs Hal. apply decode_check_all_encode with (rs := rs); assumption. Qed.

Theorem decode_check_prefix_encode_check : forall H rs al prefix hash,
  hash_ok H -> alphabet_ok rs -> new_alphabet rs = Ok al ->
  is_bytes prefix -> is_bytes hash -> length hash = 20%nat ->
  exists s, encode_check al H prefix hash = Ok s /\ decode_check_prefix al H s prefix = Ok hash.
Proof. intros H rs al p h HH Hrs Hal. apply decode_check_prefix_encode with (rs := rs); assumption. Qed.

(** C06: soundness and exact panic set. *)
Theorem decode_check_sound : forall H rs al s prefix hash,
  hash_ok H -> alphabet_ok rs -> new_alphabet rs = Ok al -> is_bytes s ->
  decode_check al H s = Ok (prefix, hash) ->
  length hash = 20%nat /\ encode_check al H prefix hash = Ok s.
Proof.
  intros H rs al s p h HH Hrs Hal Hs E.
  destruct (decode_check_inv H HH rs Hrs al Hal s p h Hs E) as (_ & _ & L & K). auto.
Qed.
Theorem decode_check1_sound : forall H rs al s prefix hash,
  hash_ok H -> alphabet_ok rs -> new_alphabet rs = Ok al -> is_bytes s ->
  decode_check1 al H s = Ok (prefix, hash) -> encode_check1 al H prefix hash = Ok s.
Proof.
  intros H rs al s p h HH Hrs Hal Hs E.
  destruct (decode_check1_inv H HH rs Hrs al Hal s p h Hs E) as (_ & _ & K). auto.
Qed.
Theorem decode_check_prefix_sound : forall H rs al s prefix hash,
  hash_ok H -> alphabet_ok rs -> new_alphabet rs = Ok al -> is_bytes s ->
  decode_check_prefix al H s prefix = Ok hash ->
  length hash = 20%nat /\ encode_check al H prefix hash = Ok s.
Proof.
  intros H rs al s p h HH Hrs Hal Hs E.
  destruct (decode_check_prefix_inv H HH rs Hrs al Hal s p h Hs E) as (_ & _ & L & K). auto.
Qed.
(** The payload carried by the text: exact acceptance and panic conditions. *)
Theorem decode_check_panics_iff : forall H rs al s,
  hash_ok H -> alphabet_ok rs -> new_alphabet rs = Ok al -> is_bytes s ->
  (decode_check al H s = Panic <->
   exists r, base58_decode al s = Ok r /\
     (zlen r < 4 \/ exists payload, is_bytes payload /\ r = checked H payload /\ zlen r < 24)).
Proof. intros H rs al s HH Hrs Hal Hs. apply decode_check_panic with (rs := rs); assumption. Qed.

(** C07 *)
Theorem program_hash_never_panics : forall H rs al prefixes from s,
  hash_ok H -> alphabet_ok rs -> new_alphabet rs = Ok al -> is_bytes s ->
  (from = 0 \/ from = 1) -> program_hash al H prefixes from s <> Panic.
Proof. intros H rs al ps from s HH Hrs Hal Hs F. apply program_hash_total with (rs := rs); auto. destruct F; subst; lia. Qed.
Theorem program_hash_sound : forall H rs al prefixes from s h,
  hash_ok H -> alphabet_ok rs -> new_alphabet rs = Ok al -> is_bytes s ->
  (from = 0 \/ from = 1) -> program_hash al H prefixes from s = Ok h ->
  exists p body, In p prefixes /\ length body = 20%nat /\
    h = (if from =? 0 then p :: body else body) /\ encode_check al H [p] body = Ok s.
Proof.
  intros H rs al ps from s h HH Hrs Hal Hs F E.
  destruct (program_hash_inv H HH rs Hrs al Hal ps from s h Hs F E) as (p & b & I & _ & _ & L & Q & K).
  exists p, b. auto.
Qed.
Theorem program_hash_complete : forall H rs al prefixes from p h,
  hash_ok H -> alphabet_ok rs -> new_alphabet rs = Ok al ->
  (from = 0 \/ from = 1) -> is_byte p -> In p prefixes -> is_bytes h -> length h = 20%nat ->
  exists s, encode_check al H [p] h = Ok s /\
    program_hash al H prefixes from s = Ok (if from =? 0 then p :: h else h).
Proof. intros H rs al ps from p h HH Hrs Hal. apply program_hash_encode with (rs := rs); assumption. Qed.

(** Concrete cases. *)
Definition ex_hash20 : bytes := [1;2;3;4;5;6;7;8;9;10;11;12;13;14;15;16;17;18;19;255].
Example check_example :
  exists s, encode_check btc_alphabet toy_hash [5] ex_hash20 = Ok s /\
    decode_check btc_alphabet toy_hash s = Ok ([5], ex_hash20) /\
    decode_check1 btc_alphabet toy_hash s = Ok (5, ex_hash20) /\
    decode_check_prefix btc_alphabet toy_hash s [5] = Ok ex_hash20 /\
    decode_check_prefix btc_alphabet toy_hash s [6] = Err /\
    program_hash btc_alphabet toy_hash [5; 9] 1 s = Ok ex_hash20 /\
    program_hash btc_alphabet toy_hash [9] 1 s = Err.
Proof. eexists. split; [vm_compute; reflexivity|]. vm_compute. repeat split; reflexivity. Qed.
Example check_panics : decode_check btc_alphabet toy_hash (str "abc") = Panic.
Proof. vm_compute. reflexivity. Qed.

Print Assumptions decode_check_encode_check.
Print Assumptions decode_check1_encode_check1.
Print Assumptions decode_check_all_encode_check1.
Print Assumptions decode_check_prefix_encode_check.
Print Assumptions decode_check_sound.
Print Assumptions decode_check1_sound.
Print Assumptions decode_check_prefix_sound.
Print Assumptions decode_check_panics_iff.
Print Assumptions program_hash_never_panics.
Print Assumptions program_hash_sound.
Print Assumptions program_hash_complete.
