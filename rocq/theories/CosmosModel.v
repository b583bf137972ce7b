(** cosmosTransaction and evaioTransaction. The two packages are the same but for the members of a signature and the order of
    the members of the broadcast request; [evaio] selects the second. Bech32Encode/Decode of these packages are those of
    Bech32Model.v. owcrypt's SHA-256 and secp256k1 functions are parameters. *)
From Coq Require Import String ZArith List Bool.
From Verif Require Import Go GoJson SigModel.
Import ListNotations.
Open Scope Z_scope.

(** cosmosTransaction/coin.go:12-16 Coin, Coins (a slice may be nil). *)
Record coin := { c_amount : list Z; c_denom : list Z }.
Definition coins := option (list coin).
(** cosmosTransaction/coin.go:37-47 NewCoin. *)
Definition new_coin (denom : list Z) (amount : Z) : coin :=
  if amount =? 0 then {| c_amount := []; c_denom := [] |} else {| c_amount := format_int amount; c_denom := denom |}.
(** cosmosTransaction/fee.go:5-8 FeeStruct. *)
Record fee := { f_amount : coins; f_gas : list Z }.
(** cosmosTransaction/fee.go:10-23 NewStdFee. *)
Definition new_std_fee (gas : Z) (amount : coins) : fee :=
  match amount with
  | None => {| f_amount := Some []; f_gas := format_int gas |}
  | Some _ => {| f_amount := amount; f_gas := format_int gas |}
  end.
(** cosmosTransaction/message.go:3-12 MsgSend, Message. *)
Record msg_send := { m_amount : coins; m_from : list Z; m_to : list Z }.
Record message := { m_type : list Z; m_value : msg_send }.
(** cosmosTransaction/message.go:14-20 NewMsgSend, NewMessage. *)
Definition new_msg_send (from to : list Z) (amount : coins) : msg_send := {| m_amount := amount; m_from := from; m_to := to |}.
Definition new_message (t : list Z) (v : msg_send) : message := {| m_type := t; m_value := v |}.
(** cosmosTransaction/txStruct.go:5-12 TxStruct. *)
Record tx := { t_account : list Z; t_chain : list Z; t_fee : fee; t_memo : list Z; t_msgs : option (list message); t_sequence : list Z }.
(** cosmosTransaction/txStruct.go:14-26 NewTxStruct: the transaction and the caller's fee afterwards. A nil pointer is None.
    Go's int is 64 bits wide. *)
Definition new_tx (chain memo : list Z) (account sequence : Z) (f : option fee) (msgs : option (list message)) : res (tx * fee) :=
  match f with
  | None => Panic
  | Some f =>
      match f_amount f with
      | Some (c :: _) =>
          let f' := if Nat.eqb (length (c_amount c)) 0 then {| f_amount := Some []; f_gas := f_gas f |} else f in
          Ok ({| t_account := format_int account; t_chain := chain; t_fee := f'; t_memo := memo; t_msgs := msgs; t_sequence := format_int sequence |}, f')
      | _ => Panic
      end
  end.

(** The JSON texts: encoding/json on the structs with their tags. cosmosTransaction/coin.go:12-15. *)
Definition coin_json (c : coin) : list Z := go_object [(str "amount", go_string (c_amount c)); (str "denom", go_string (c_denom c))].
Definition coins_json (l : coins) : list Z := go_array (option_map (map coin_json) l).
(** cosmosTransaction/fee.go:5-8. *)
Definition fee_json (f : fee) : list Z := go_object [(str "amount", coins_json (f_amount f)); (str "gas", go_string (f_gas f))].
(** cosmosTransaction/message.go:3-12. *)
Definition msg_send_json (m : msg_send) : list Z :=
  go_object [(str "amount", coins_json (m_amount m)); (str "from_address", go_string (m_from m)); (str "to_address", go_string (m_to m))].
Definition message_json (m : message) : list Z := go_object [(str "type", go_string (m_type m)); (str "value", msg_send_json (m_value m))].
Definition messages_json (l : option (list message)) : list Z := go_array (option_map (map message_json) l).
(** cosmosTransaction/txStruct.go:5-12. *)
Definition tx_json (t : tx) : list Z :=
  go_object [(str "account_number", go_string (t_account t)); (str "chain_id", go_string (t_chain t)); (str "fee", fee_json (t_fee t));
             (str "memo", go_string (t_memo t)); (str "msgs", messages_json (t_msgs t)); (str "sequence", go_string (t_sequence t))].

Section Crypto.
Variable sha256 : bytes -> bytes.
(** owcrypt.Signature with secp256k1: the signature and whether it succeeded; owcrypt.Verify. *)
Variable sign : bytes -> bytes -> bytes * bool.
Variable verify : bytes -> bytes -> bytes -> bool.
(** cosmosTransaction/transaction.go:12-23 CreateEmptyTransactionAndHash; encoding/json cannot fail on these types. *)
Definition create_empty (t : tx) : list Z * list Z := let text := tx_json t in (text, hex_encode (sha256 text)).
(** cosmosTransaction/transaction.go:49-66 SignTransactionHash: the signature is normalised before its success is looked at. *)
Definition sign_hash (txHash : list Z) (prikey : bytes) : res (list Z) :=
  hash <- hex_decode txHash ;;
  if negb (zlen hash =? 32) || negb (zlen prikey =? 32) then Err else
  let '(sig, ok) := sign prikey hash in
  sig <- serialize_s secp_order secp_half sig ;;
  if ok then Ok (hex_encode sig) else Err.
(** cosmosTransaction/transaction.go:68-82 VerifyTransactionSig. *)
Definition verify_sig (text signature : list Z) (pubkey : bytes) : bool :=
  match hex_decode signature with
  | Ok sig => verify pubkey (sha256 text) sig
  | _ => false
  end.
End Crypto.

(** cosmosTransaction/txSend.go:5-15 Pub, NewPub. *)
Definition pub_json (pubkey : bytes) (keyType : list Z) : list Z := go_object [(str "type", go_string keyType); (str "value", go_string (b64_encode pubkey))].
(** cosmosTransaction/txSend.go:17-31 and evaioTransaction/txSend.go:17-31 Sig, NewSig. *)
Definition sig_json (evaio : bool) (sig pubkey : bytes) (keyType account sequence : list Z) : list Z :=
  go_object ([(str "signature", go_string (b64_encode sig)); (str "pub_key", pub_json pubkey keyType)] ++
             if evaio then [] else [(str "account_number", go_string account); (str "sequence", go_string sequence)]).
(** cosmosTransaction/txSend.go:33-59 and evaioTransaction/txSend.go:33-60 Tx, TxSend. *)
Definition signed_json (evaio : bool) (t : tx) (sig pubkey : bytes) (keyType : list Z) : list Z :=
  go_object [(str "msg", messages_json (t_msgs t)); (str "fee", fee_json (t_fee t)); (str "memo", go_string (t_memo t));
             (str "signatures", go_array (Some [sig_json evaio sig pubkey keyType (t_account t) (t_sequence t)]))].
(** cosmosTransaction/transaction.go:84-100 CreateJsonForSend: the text given to gjson, which keeps it as it is. *)
Definition create_json (evaio : bool) (t : tx) (signature : list Z) (pubkey : bytes) (keyType mode : list Z) : res (list Z) :=
  sig <- hex_decode signature ;;
  let body := (str "tx", signed_json evaio t sig pubkey keyType) in
  let how := (str "mode", go_string mode) in
  Ok (go_object (if evaio then [how; body] else [body; how])).
