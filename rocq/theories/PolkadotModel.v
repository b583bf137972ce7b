(** Model of polkadotTransaction: codec.go, txEra.go, txMethod.go, txPayLoad.go, txStruct.go, transaction.go. *)
From Coq Require Import ZArith List Bool.
From Verif Require Import Go.
Import ListNotations.
Open Scope Z_scope.

(** codec.go:9-19 CompactLength. *)
Definition compact_length (data : Z) : Z :=
  if data <=? 63 then 1 else if data <=? 16383 then 2 else if data <=? 1073741823 then 4 else 5.
(** codec.go:21-30 ExtendLEBytes. *)
Definition extend_le (input : bytes) (n : Z) : bytes := input ++ zeros (Z.to_nat (n - zlen input)).
(** codec.go:39-49 removeExtraLEBytes: index goes down while the byte before it is zero; input[-1] panics. *)
Fixpoint drop0 (rev_input : bytes) : res bytes :=
  match rev_input with
  | [] => Panic
  | b :: r => if b =? 0 then drop0 r else Ok rev_input
  end.
Definition remove_extra_le (input : bytes) : res bytes := r <- drop0 (rev input) ;; Ok (rev r).
(** codec.go:71-80, the loop: every byte is shifted left by two, its two upper bits move to the next byte. Returns the
    bytes and the last two bits. *)
Fixpoint shift2 (carry : Z) (first : bool) (l : bytes) : bytes * Z :=
  match l with
  | [] => ([], carry)
  | b :: r =>
      let repl := Z.shiftr (Z.land b 192) 6 in
      let b' := u8 (Z.shiftl b 2) in
      let b' := if first then b' else Z.lor b' carry in
      let '(t, c) := shift2 repl false r in (b' :: t, c)
  end.
(** codec.go:51-91 BytesToCompactBytes. *)
Definition bytes_to_compact (l : bytes) : res bytes :=
  if 4 <? zlen l then Ok (u8 (Z.lor (Z.shiftl (zlen l - 4) 2) 3) :: l)
  else
    let mode := if zlen l =? 1 then 0 else if zlen l =? 2 then 1 else 2 in
    let '(s, next) := shift2 0 true l in
    let s := if negb (next =? 0) then s ++ [next] else s in
    match s with
    | [] => Panic
    | b :: r => Ok (extend_le (Z.lor b mode :: r) (if mode =? 0 then 1 else if mode =? 1 then 2 else 4))
    end.
(** codec.go:93-95 getLeadingZeros: the value goes through int64. *)
Definition bit_len (x : Z) : Z := if x =? 0 then 0 else Z.log2 (Z.abs x) + 1.
Definition leading_zeros (data : Z) : Z := 64 - bit_len (s64 data).
(** codec.go:97-99 getPrefix (the byte behind the hex text). Go's division of the non-negative count by 8. *)
Definition get_prefix (data : Z) : Z := u8 (3 + (8 - leading_zeros data / 8 - 4) * 4).
(** codec.go:101-105 uint64ToLittleEndianArrayWithoutLeadingZeros and 107-126 Encode. The code concatenates hex texts;
    here the bytes are concatenated and [encode] gives their hex text. *)
Definition encode_bytes (data : Z) : res bytes :=
  if 1073741823 <? data then t <- remove_extra_le (le_bytes 8 data) ;; Ok (get_prefix data :: t)
  else
    b <- remove_extra_le (le_bytes 4 (u32 data)) ;;
    let n := compact_length (u32 data) in
    let b := b ++ zeros (Z.to_nat (n - zlen b)) in
    r <- bytes_to_compact b ;;
    if n =? 5 then match r with [] => Panic | _ :: t => Ok (3 :: t) end else Ok r.
Definition encode (data : Z) : res (list Z) := b <- encode_bytes data ;; Ok (hex_encode b).

(** txEra.go:6-33 GetEra. trailingZero is the constant 5. *)
Definition get_era (height : Z) : bytes :=
  let phase := height mod 64 in
  let encoded := u64 (5 + u64 (Z.shiftl (phase / 1) 4)) in
  [u8 (Z.land encoded 255); u8 (Z.shiftr encoded 8)].

(** hex.DecodeString with the error ignored: the bytes before the first bad pair. *)
Fixpoint hex_prefix (s : list Z) : bytes :=
  match s with
  | a :: b :: r => match hex_val a, hex_val b with Some x, Some y => x * 16 + y :: hex_prefix r | _, _ => [] end
  | _ => []
  end.

(** txStruct.go:10-23 TxStruct. Its JSON text (ToJSONString, NewTxStructFromJSON) is in PolkadotJsonModel.v: the functions
    below take the structure. *)
Record tx := { sender : list Z; recipient : list Z; amount : Z; nonce : Z; fee : Z; height : Z; block_hash : list Z; genesis_hash : list Z; spec_version : Z; tx_version : Z }.
(** txMethod.go:13-36 NewMethodTransfer and 38-52 ToBytes (AccounntIDFollow is false). *)
Definition method_bytes (code : list Z) (t : tx) : res bytes :=
  pub <- hex_decode (recipient t) ;;
  if negb (zlen pub =? 32) then Err else
  if amount t =? 0 then Err else
  s <- encode (amount t) ;;
  let a := hex_prefix s in
  if zlen a =? 0 then Err else
  Ok (hex_prefix code ++ pub ++ a).
(** nonce and fee: zero is the byte 0. *)
Definition compact_or_zero (v : Z) : res bytes := if v =? 0 then Ok [0] else s <- encode v ;; Ok (hex_prefix s).
(** txStruct.go:26-83 NewTxPayLoad with txPayLoad.go:16-29 ToBytesString: the message in hex. *)
Definition message (code : list Z) (t : tx) : res (list Z) :=
  m <- method_bytes code t ;;
  if height t =? 0 then Err else
  n <- compact_or_zero (nonce t) ;;
  f <- compact_or_zero (fee t) ;;
  g <- hex_decode (genesis_hash t) ;;
  if negb (zlen g =? 32) then Err else
  b <- hex_decode (block_hash t) ;;
  if negb (zlen b =? 32) then Err else
  Ok (hex_encode (m ++ get_era (height t) ++ n ++ f ++ le_bytes 4 (spec_version t) ++ le_bytes 4 (tx_version t) ++ g ++ b)).
(** txStruct.go:104-168 GetSignedTransaction; the empty text with a nil error is [Ok []]. *)
Definition signed_tx (code : list Z) (t : tx) (signature : list Z) : res (list Z) :=
  match hex_decode (sender t) with
  | Ok from =>
      if negb (zlen from =? 32) then Ok [] else
      match hex_decode signature with
      | Ok sig =>
          if negb (zlen sig =? 64) then Ok [] else
          if height t =? 0 then Err else
          n <- compact_or_zero (nonce t) ;;
          f <- compact_or_zero (fee t) ;;
          m <- method_bytes code t ;;
          let signed := [0x84; 0x00] ++ from ++ [0x00] ++ sig ++ get_era (height t) ++ n ++ f ++ m in
          l <- encode (zlen signed) ;;
          Ok (48 :: 120 :: hex_encode (hex_prefix l) ++ hex_encode signed)
      | _ => Ok []
      end
  | _ => Ok []
  end.
(** transaction.go:37-72 VerifyAndCombineTransaction; [verify] is whether owcrypt.Verify (ed25519) succeeds for public
    key, message and signature. [Ok (text, ok)] is the pair returned. *)
Definition verify_and_combine (verify : bytes -> bytes -> bytes -> bool) (code : list Z) (t : tx) (signature : list Z) : res (list Z * bool) :=
  match message code t with
  | Panic => Panic
  | Err => Ok ([], false)
  | Ok m =>
      match hex_decode signature with
      | Ok sig =>
          if negb (zlen sig =? 64) then Ok ([], false) else
          if negb (verify (hex_prefix (sender t)) (hex_prefix m) sig) then Ok ([], false) else
          match signed_tx code t signature with
          | Panic => Panic
          | Err => Ok ([], false)
          | Ok s => Ok (s, true)
          end
      | _ => Ok ([], false)
      end
  end.
