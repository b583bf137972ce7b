(** Model of virtualeconomyTransaction. *)
From Coq Require Import ZArith List Bool.
From Verif Require Import Go Rd Base58Model Base58CheckModel.
Import ListNotations.
Open Scope Z_scope.

(** transaction.go:13-20 TxStruct. *)
Record txs := { v_type : Z; v_to : list Z; v_amount : Z; v_fee : Z; v_scale : Z; v_attachment : list Z }.
Section V.
Variable al : alphabet.
Variable H : bytes -> bytes. (* Keccak-256 of BLAKE2b-256 *)
(** transaction.go:29-55 CreateEmptyTransaction; [now] is time.Now().UnixNano(), which is positive. *)
Definition create (now : Z) (ts : txs) : res (list Z) :=
  let timestamp := be_bytes 8 (u64 (now / 1000 * 1000)) in
  let b := v_type ts :: timestamp ++ be_bytes 8 (v_amount ts) ++ be_bytes 8 (v_fee ts) ++ be_bytes 2 (v_scale ts) in
  recipient <- decode_check_all al H (v_to ts) ;;
  let b := b ++ recipient in
  Ok (hex_encode (match v_attachment ts with [] => b ++ [0; 0] | _ => b end)).
(** txDecode.go:8-64 TxStructDecode. *)
Definition tx_decode (tx : bytes) : res (txs * Z) :=
  need1 tx (fun t tx =>
  need 8 tx (fun timestamp tx =>
  need 8 tx (fun amount tx =>
  need 8 tx (fun fee tx =>
  need 2 tx (fun scale tx =>
  need 26 tx (fun to tx =>
  s <- base58_encode al to ;;
  need 2 tx (fun att tx =>
  a0 <- idx att 0 ;;
  a1 <- idx att 1 ;;
  if (a0 =? 0) && (a1 =? 0) then
    (if negb (zlen tx =? 0) then Err else
     Ok ({| v_type := t; v_to := s; v_amount := be_num amount; v_fee := be_num fee; v_scale := be_num scale; v_attachment := [] |}, be_num timestamp))
  else Err))))))).
(** transaction.go:83-96 VerifyTransaction. *)
Definition verify_tx (verify : bytes -> bytes -> bytes -> bool) (emptyTrans : list Z) (pub sig : bytes) : bool :=
  match hex_decode emptyTrans with Ok b => verify pub b sig | _ => false end.
(** transaction.go:99-130 CreateJSONRawForSendTransaction: the members of the JSON object. *)
Record body := { j_timestamp : Z; j_amount : Z; j_fee : Z; j_scale : Z; j_recipient : list Z; j_key : list Z; j_attachment : list Z; j_signature : list Z }.
Definition json_body (emptyTrans : list Z) (pub sig : bytes) : res body :=
  b <- hex_decode emptyTrans ;;
  '(ts, timestamp) <- tx_decode b ;;
  k <- base58_encode al pub ;;
  s <- base58_encode al sig ;;
  Ok {| j_timestamp := timestamp; j_amount := v_amount ts; j_fee := v_fee ts; j_scale := v_scale ts; j_recipient := v_to ts; j_key := k; j_attachment := v_attachment ts; j_signature := s |}.
End V.
