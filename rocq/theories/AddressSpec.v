(** Specification vocabulary for AddressEncode / AddressDecode, independent of the code's control flow. *)
From Coq Require Import String ZArith List.
From Verif Require Import Go Base58Spec Base58CheckSpec AddressModel.
Import ListNotations.
Open Scope Z_scope.

(** Digest sizes in bytes. *)
Definition digest_len (a : alg) : nat :=
  match a with
  | DoubleSha256 | DoubleBlake256 | Keccak256 | Sha3_256 | Blake2b_32 => 32
  | Blake2b_20 | Ripemd160 | Hash160 | Keccak256_Ripemd160 | Sha3_256_Ripemd160 => 20
  end.
(** What is assumed of the hash functions: they map byte strings to byte strings of the right size. *)
Definition hashes_ok (H : alg -> bytes -> bytes) : Prop :=
  forall a d, is_bytes d -> is_bytes (H a d) /\ length (H a d) = digest_len a.

(** The checksum rules by name, and the hash whose first four bytes are the checksum. *)
Inductive checksum_rule (H : alg -> bytes -> bytes) : list Z -> (bytes -> bytes) -> Prop :=
| rule_sha2 : checksum_rule H (str "doubleSHA256") (H DoubleSha256)
| rule_blake256 : checksum_rule H (str "doubleBlake256") (H DoubleBlake256)
| rule_keccak : checksum_rule H (str "keccak256") (H Keccak256)
| rule_sha3 : checksum_rule H (str "sha3_256") (H Sha3_256)
| rule_blake2b_keccak : checksum_rule H (str "blake2b_and_keccak256_first_twenty") (fun d => H Keccak256 (H Blake2b_32 d))
| rule_ripemd : checksum_rule H (str "ripemd160") (H Ripemd160).

(** A well-formed base58 profile with checksum hash [f]. *)
Definition base58_profile (H : alg -> bytes -> bytes) (T : addr_type) (f : bytes -> bytes) : Prop :=
  encode_type T = str "base58" /\ alphabet_ok (alphabet_of T) /\
  checksum_rule H (checksum_type T) f /\ is_bytes (prefix_of T) /\ is_bytes (suffix_of T).

(** [d] carries the payload [h] under profile [T]. *)
Definition framed (T : addr_type) (h : bytes) : bytes := prefix_of T ++ h ++ suffix_of T.
