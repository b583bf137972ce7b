(** Model of the JSON texts of polkadotTransaction: txStruct.go ToJSONString, NewTxStructFromJSON, and transaction.go with the texts
    its functions exchange. The JSON writer and reader of Go are GoJson.v and GoUnjson.v. *)
From Coq Require Import String ZArith List Bool.
From Verif Require Import Go GoJson GoUnjson PolkadotModel.
Import ListNotations.
Open Scope Z_scope.

(** txStruct.go:85-89 ToJSONString with the names of txStruct.go:10-23. *)
Definition to_json (t : tx) : list Z :=
  go_object [
    (str "sender_pubkey", go_string (sender t));
    (str "recipient_pubkey", go_string (recipient t));
    (str "amount", format_int (amount t));
    (str "nonce", format_int (nonce t));
    (str "fee", format_int (fee t));
    (str "block_height", format_int (height t));
    (str "block_hash", go_string (block_hash t));
    (str "genesis_hash", go_string (genesis_hash t));
    (str "spec_version", format_int (spec_version t));
    (str "txVersion", format_int (tx_version t))].
(** txStruct.go:10-23, each field as json.Unmarshal fills it. *)
Definition set_sender (v : jval) (t : tx) : option tx := option_map (fun x => {| sender := x; recipient := recipient t; amount := amount t; nonce := nonce t; fee := fee t; height := height t; block_hash := block_hash t; genesis_hash := genesis_hash t; spec_version := spec_version t; tx_version := tx_version t |}) (to_string v (sender t)).
Definition set_recipient (v : jval) (t : tx) : option tx := option_map (fun x => {| sender := sender t; recipient := x; amount := amount t; nonce := nonce t; fee := fee t; height := height t; block_hash := block_hash t; genesis_hash := genesis_hash t; spec_version := spec_version t; tx_version := tx_version t |}) (to_string v (recipient t)).
Definition set_amount (v : jval) (t : tx) : option tx := option_map (fun x => {| sender := sender t; recipient := recipient t; amount := x; nonce := nonce t; fee := fee t; height := height t; block_hash := block_hash t; genesis_hash := genesis_hash t; spec_version := spec_version t; tx_version := tx_version t |}) (to_uint 64 v (amount t)).
Definition set_nonce (v : jval) (t : tx) : option tx := option_map (fun x => {| sender := sender t; recipient := recipient t; amount := amount t; nonce := x; fee := fee t; height := height t; block_hash := block_hash t; genesis_hash := genesis_hash t; spec_version := spec_version t; tx_version := tx_version t |}) (to_uint 64 v (nonce t)).
Definition set_fee (v : jval) (t : tx) : option tx := option_map (fun x => {| sender := sender t; recipient := recipient t; amount := amount t; nonce := nonce t; fee := x; height := height t; block_hash := block_hash t; genesis_hash := genesis_hash t; spec_version := spec_version t; tx_version := tx_version t |}) (to_uint 64 v (fee t)).
Definition set_height (v : jval) (t : tx) : option tx := option_map (fun x => {| sender := sender t; recipient := recipient t; amount := amount t; nonce := nonce t; fee := fee t; height := x; block_hash := block_hash t; genesis_hash := genesis_hash t; spec_version := spec_version t; tx_version := tx_version t |}) (to_uint 64 v (height t)).
Definition set_block_hash (v : jval) (t : tx) : option tx := option_map (fun x => {| sender := sender t; recipient := recipient t; amount := amount t; nonce := nonce t; fee := fee t; height := height t; block_hash := x; genesis_hash := genesis_hash t; spec_version := spec_version t; tx_version := tx_version t |}) (to_string v (block_hash t)).
Definition set_genesis_hash (v : jval) (t : tx) : option tx := option_map (fun x => {| sender := sender t; recipient := recipient t; amount := amount t; nonce := nonce t; fee := fee t; height := height t; block_hash := block_hash t; genesis_hash := x; spec_version := spec_version t; tx_version := tx_version t |}) (to_string v (genesis_hash t)).
Definition set_spec_version (v : jval) (t : tx) : option tx := option_map (fun x => {| sender := sender t; recipient := recipient t; amount := amount t; nonce := nonce t; fee := fee t; height := height t; block_hash := block_hash t; genesis_hash := genesis_hash t; spec_version := x; tx_version := tx_version t |}) (to_uint 32 v (spec_version t)).
Definition set_tx_version (v : jval) (t : tx) : option tx := option_map (fun x => {| sender := sender t; recipient := recipient t; amount := amount t; nonce := nonce t; fee := fee t; height := height t; block_hash := block_hash t; genesis_hash := genesis_hash t; spec_version := spec_version t; tx_version := x |}) (to_uint 32 v (tx_version t)).
Definition fields : list (list Z * (jval -> tx -> option tx)) := [
  (str "sender_pubkey", set_sender);
  (str "recipient_pubkey", set_recipient);
  (str "amount", set_amount);
  (str "nonce", set_nonce);
  (str "fee", set_fee);
  (str "block_height", set_height);
  (str "block_hash", set_block_hash);
  (str "genesis_hash", set_genesis_hash);
  (str "spec_version", set_spec_version);
  (str "txVersion", set_tx_version)].
Definition zero : tx := {| sender := []; recipient := []; amount := 0; nonce := 0; fee := 0; height := 0; block_hash := []; genesis_hash := []; spec_version := 0; tx_version := 0 |}.
(** txStruct.go:91-102 NewTxStructFromJSON. *)
Definition from_json (text : list Z) : res tx :=
  match unjson text with
  | Some v => match to_struct tx fields v zero with Some t => Ok t | None => Err end
  | None => Err
  end.
(** transaction.go:9-17 CreateEmptyTransactionAndMessage. *)
Definition create (code : list Z) (t : tx) : res (list Z * list Z) := m <- message code t ;; Ok (to_json t, m).
(** transaction.go:37-72 VerifyAndCombineTransaction on the text; the part after the text is read is [verify_and_combine]. *)
Definition verify_text (verify : bytes -> bytes -> bytes -> bool) (code text signature : list Z) : res (list Z * bool) :=
  match from_json text with
  | Ok t => verify_and_combine verify code t signature
  | Err => Ok ([], false)
  | Panic => Panic
  end.
(** transaction.go:19-35 SignTransaction; [sign key msg] is the signature of owcrypt.Signature (ed25519) if it succeeds. *)
Definition sign_message (sign : bytes -> bytes -> option bytes) (text : list Z) (key : bytes) : res bytes :=
  msg <- hex_decode text ;;
  if zlen msg =? 0 then Err else
  if negb (zlen key =? 32) then Err else
  match sign key msg with Some s => Ok s | None => Err end.
