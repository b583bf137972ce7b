(** Reading the previous transaction id of an input of a decoded transaction.
    DecodeRawTransaction keeps sub-slices of the caller's bytes; TxIn.GetTxID reverses its slice in place.
    Models, in btcTransaction and btcLikeTxDriver (the same text stands in bitcoincashTransaction, bitcoinsvTransaction,
    hcTransaction, omniTransaction, zencashTransaction and cxcTransaction), what these calls return and what they leave in the
    caller's bytes. *)
From Coq Require Import ZArith List Bool Lia.
From Verif Require Import Go Rd.
Import ListNotations.
Open Scope Z_scope.

(** b[i] = v; btcTransaction/txUtils.go:24 *)
Definition put (b : bytes) (i v : Z) : res bytes :=
  if (0 <=? i) && (i <? zlen b) then Ok (firstn (Z.to_nat i) b ++ v :: skipn (S (Z.to_nat i)) b) else Panic.
(** reverseBytes on the slice b[i..j] of the caller's bytes; btcTransaction/txUtils.go:22-27, btcLikeTxDriver/utils.go:9-14.
    The fuel bounds the number of swaps; half of the length suffices. *)
Fixpoint reverse_loop (fuel : nat) (b : bytes) (i j : Z) : res bytes :=
  if i <? j then
    match fuel with
    | O => Err
    | S f => x <- idx b i ;; y <- idx b j ;; b1 <- put b i y ;; b2 <- put b1 j x ;; reverse_loop f b2 (i + 1) (j - 1)
    end
  else Ok b.
Definition reverse_in_place (b : bytes) (off len : Z) : res bytes := reverse_loop (Z.to_nat len) b off (off + len - 1).
(** TxIn.GetTxID; btcTransaction/txIn.go:29-31 and txUtils.go:42-44, btcLikeTxDriver/txIn.go:15-17 and utils.go:30-32.
    The slice in.TxID is b[off : off+32] of the bytes that were decoded. *)
Definition get_txid (b : bytes) (off : Z) : res (list Z * bytes) :=
  b1 <- reverse_in_place b off 32 ;; s <- slice b1 off (off + 32) ;; Ok (hex_encode s, b1).
(** Where the TxID of input n lies; btcTransaction/txStruct.go:106-219, btcLikeTxDriver/txStruct.go:160-213.
    Simplification: only the index arithmetic of the loop over the inputs, with script lengths below 0xFD. *)
Fixpoint txid_walk (b : bytes) (n : nat) (index : Z) : res Z :=
  match n with
  | O => Ok index
  | S m => len <- idx b (index + 36) ;; txid_walk b m (index + 36 + 1 + len + 4)
  end.
Definition txid_offset (b : bytes) (n : nat) : res Z :=
  m <- idx b 4 ;; txid_walk b n (4 + (if m =? 0 then 2 else 0) + 1).
(** A user decodes once and calls GetTxID on the inputs with the given numbers, one after the other; [b] are the bytes as
    decoding left them (btcLikeTxDriver changes witnesses, see LikeWitModel.v). *)
Fixpoint txid_calls (b : bytes) (offs : list Z) : res (list (list Z) * bytes) :=
  match offs with
  | [] => Ok ([], b)
  | off :: r => x <- get_txid b off ;; let '(t, b1) := x in y <- txid_calls b1 r ;; let '(ts, b2) := y in Ok (t :: ts, b2)
  end.
Definition txid_session (b : bytes) (calls : list nat) : res (list (list Z) * bytes) :=
  offs <- mapr (txid_offset b) calls ;; txid_calls b offs.
