(** Model of the integer helpers of the txUtils.go files. *)
From Coq Require Import ZArith List Bool.
From Verif Require Import Go.
Import ListNotations.
Open Scope Z_scope.

(** btcTransaction/txUtils.go:46-80 and the same functions in omniTransaction, hypercashTransaction, ...:
    uint16/32/64ToLittleEndianBytes for n = 2, 4, 8. *)
Definition put_le (n : nat) (v : Z) : bytes := le_bytes n v.
(** littleEndianBytesToUint16/32/64: binary.LittleEndian.Uint* reads the first n bytes and panics if there are fewer. *)
Definition get_le (n : nat) (data : bytes) : res Z := if zlen data <? Z.of_nat n then Panic else Ok (le_num (firstn n data)).
(** omniTransaction/txUtils.go:58-67, 80-89, 102-110: uint16/32/64ToBigEndianBytes, bigEndianBytesToUint16/32/64. *)
Definition put_be (n : nat) (v : Z) : bytes := be_bytes n v.
Definition get_be (n : nat) (data : bytes) : res Z := if zlen data <? Z.of_nat n then Panic else Ok (be_num (firstn n data)).
(** hypercashTransaction/txUtils.go:89-102 varIntToBytes. *)
Definition var_int (v : Z) : bytes :=
  if v <? 0xfd then [v mod 2 ^ 8] else
  if v <=? 0xffff then 0xfd :: put_le 2 (v mod 2 ^ 16) else
  if v <=? 0xffffffff then 0xfe :: put_le 4 (v mod 2 ^ 32) else
  0xff :: put_le 8 v.
