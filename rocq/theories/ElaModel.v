(** Model of elastosTransaction. *)
From Coq Require Import ZArith List Bool.
From Verif Require Import Go Base58Model Base58CheckModel Uvarint.
Import ListNotations.
Open Scope Z_scope.

(** transaction.go:10-14 Vin, 16-20 Vout, txSignature.go:5-8 SigPub. *)
Record vin := { i_txid : list Z; i_vout : Z; i_address : list Z }.
Record vout := { o_asset : list Z; o_amount : Z; o_address : list Z }.
Record sigpub := { s_pub : bytes; s_sig : bytes }.

Section E.
Variable al : alphabet.
Variable H2 : bytes -> bytes. (* double SHA-256, for addresses *)
Variable H : bytes -> bytes. (* SHA-256 *)
Variable decompress : bytes -> bytes. (* owcrypt.PointDecompress *)
Variable verify : bytes -> bytes -> bytes -> bool. (* owcrypt.Verify: key, message, signature *)

(** txUtils.go:18-27 reverseHexToBytes. *)
Definition reverse_hex (h : list Z) : res bytes :=
  if zlen h mod 2 =? 1 then Err else b <- hex_decode h ;; Ok (rev b).
(** txIn.go:11-23 NewInput followed by 25-34 ToBytes. *)
Definition input_bytes (i : vin) : res bytes :=
  txid <- reverse_hex (i_txid i) ;; Ok (txid ++ le_bytes 2 (i_vout i) ++ [0xff; 0xff; 0xff; 0xff]).
(** txOut.go:14-33 NewOutput followed by 35-44 ToBytes; txProfile.go:6 AddressPrefix = 0x21. *)
Definition output_bytes (o : vout) : res bytes :=
  asset <- reverse_hex (o_asset o) ;;
  p <- program_hash al H2 [0x21] 0 (o_address o) ;;
  Ok (asset ++ le_bytes 8 (o_amount o) ++ [0; 0; 0; 0] ++ p).
(** txStruct.go:22-37, the two loops of NewTransaction. *)
Fixpoint each {A} (f : A -> res bytes) (l : list A) : res (list bytes) :=
  match l with [] => Ok [] | x :: r => b <- f x ;; t <- each f r ;; Ok (b :: t) end.
(** txStruct.go:15-44 NewTransaction and 46-66 GetEmptyAndHash; the lock time and the attribute count are always 0. *)
Definition tx_bytes (vins : list vin) (vouts : list vout) : res bytes :=
  is <- each input_bytes vins ;;
  os <- each output_bytes vouts ;;
  ci <- uint64_to_uvarint (zlen is) ;;
  co <- uint64_to_uvarint (zlen os) ;;
  Ok ([2; 0; 0] ++ ci ++ concat is ++ co ++ concat os ++ [0; 0; 0; 0]).
(** transaction.go:37-47, the loop over the inputs: a hash for each address not seen before. *)
Fixpoint hashes (vins : list vin) (acc : list (list Z * list Z)) (hash : list Z) : list (list Z * list Z) :=
  match vins with
  | [] => acc
  | i :: r => hashes r (if existsb (fun t => beq (fst t) (i_address i)) acc then acc else acc ++ [(i_address i, hash)]) hash
  end.
(** transaction.go:27-50 CreateEmptyRawTransactionAndHash. *)
Definition create (vins : list vin) (vouts : list vout) : res (list Z * list (list Z * list Z)) :=
  if (zlen vins =? 0) || (zlen vouts =? 0) then Err else
  b <- tx_bytes vins vouts ;;
  Ok (hex_encode b, hashes vins [] (hex_encode (H b))).
(** txSignature.go:12-31 SigPub.ToBytes. *)
Definition sigpub_bytes (s : sigpub) : res bytes :=
  if negb (zlen (s_pub s) =? 0x21) then Err else
  if negb (zlen (s_sig s) =? 0x40) then Err else
  Ok ([0x41; 0x40] ++ s_sig s ++ [0x23; 0x21] ++ s_pub s ++ [0xAC]).
(** txSignature.go:33-45 Sigpubs.ToBytes. *)
Definition sigpubs_bytes (l : list sigpub) : res bytes :=
  c <- uint64_to_uvarint (zlen l) ;; t <- each sigpub_bytes l ;; Ok (c ++ concat t).
(** transaction.go:75-80, the loop of VerifyAndCombineRawTransaction; slicing off the first byte of the key panics when there is none. *)
Fixpoint check (hash : bytes) (l : list sigpub) : res bool :=
  match l with
  | [] => Ok true
  | s :: r => k <- slice_from (decompress (s_pub s)) 1 ;; if verify k hash (s_sig s) then check hash r else Ok false
  end.
(** transaction.go:66-88 VerifyAndCombineRawTransaction; [None] is the result (false, ""). *)
Definition verify_and_combine (emptyTrans : list Z) (l : list sigpub) : res (option (list Z)) :=
  match hex_decode emptyTrans with
  | Panic => Panic
  | Err => Ok None
  | Ok tx =>
      ok <- check (H tx) l ;;
      if ok then match sigpubs_bytes l with Panic => Panic | Err => Ok None | Ok s => Ok (Some (hex_encode (tx ++ s))) end else Ok None
  end.
End E.
