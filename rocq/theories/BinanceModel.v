(** Model of binancechainTransaction. The package is a thin layer over github.com/binance-chain/go-sdk (not in /repo): the
    functions of the SDK it calls are the parameter [sdk]. owcrypt's SHA-256 and secp256k1 functions are parameters too. *)
From Coq Require Import String ZArith List Bool.
From Verif Require Import Go SigModel.
Import ListNotations.
Open Scope Z_scope.

(** The SDK's values: types.Coin, msg.Input/msg.Output, msg.SendMsg, tx.StdSignDoc (its messages are raw texts),
    tx.StdSignature and tx.StdTx. Simplification: nil and empty Data are the same. *)
Record coin := { c_denom : list Z; c_amount : Z }.
Record party := { p_addr : bytes; p_coins : list coin }.
Record send_msg := { s_inputs : list party; s_outputs : list party }.
Record sign_doc := { d_chain : list Z; d_account : Z; d_sequence : Z; d_memo : list Z; d_msgs : list (list Z); d_source : Z; d_data : bytes }.
Record std_sig := { g_pub : bytes; g_sig : bytes; g_account : Z; g_sequence : Z }.
Record std_tx := { x_msgs : list send_msg; x_sigs : list std_sig; x_memo : list Z; x_source : Z; x_data : bytes }.
Record sdk := {
  (** bech32.DecodeAndConvert: the prefix and the address bytes. *)
  k_decode : list Z -> option (list Z * bytes);
  (** tx.StdSignBytes: chain id, account number, sequence, messages, memo, source, data. tx.StdSignMsg.Bytes is this function
      on the fields of the StdSignMsg. *)
  k_text : list Z -> Z -> Z -> list send_msg -> list Z -> Z -> bytes -> bytes;
  (** tx.Cdc.UnmarshalJSON into a StdSignDoc; json.Unmarshal into a SendMsg. *)
  k_doc : list Z -> option sign_doc;
  k_msg : list Z -> option send_msg;
  (** tx.Cdc.MarshalBinaryLengthPrefixed and UnmarshalBinaryLengthPrefixed of a StdTx. *)
  k_wire : std_tx -> option bytes;
  k_unwire : bytes -> option std_tx }.

(** profile.go:3-6. *)
Definition Bech32Prefix := str "bnb".
Definition ChainID := str "Binance-Chain-Tigris".

Section Code.
Variable K : sdk.
Variable sha256 : bytes -> bytes.
(** owcrypt.Signature (None: failure), owcrypt.Verify and owcrypt.PointDecompress (empty when it fails). *)
Variable sign : bytes -> bytes -> option bytes.
Variable verify : bytes -> bytes -> bytes -> bool.
Variable decompress : bytes -> bytes.
(** msg-send.go:10-42 CreateSendMsg; msg.CreateSendMsg of the SDK makes one input and one output for each transfer. *)
Definition create_send_msg (fromAddress toAddress denom : list Z) (amount : Z) : res send_msg :=
  match k_decode K fromAddress with
  | None => Err
  | Some (prefix, from) =>
      if negb (beq prefix Bech32Prefix) then Err else
      match k_decode K toAddress with
      | None => Err
      | Some (prefix, to) =>
          if negb (beq prefix Bech32Prefix) then Err else
          let coin := {| c_denom := denom; c_amount := amount |} in
          Ok {| s_inputs := [{| p_addr := from; p_coins := [coin] |}]; s_outputs := [{| p_addr := to; p_coins := [coin] |}] |}
      end
  end.
(** transaction.go:12-31 CreateEmptyTransactionAndHash. *)
Definition create_tx (from to denom : list Z) (amount account sequence source : Z) (memo : list Z) : res (list Z * list Z) :=
  sendMsg <- create_send_msg from to denom amount ;;
  let emptyTrans := k_text K ChainID account sequence [sendMsg] memo source [] in
  let hash := k_text K ChainID account sequence [sendMsg] memo source [] in
  Ok (emptyTrans, hex_encode (sha256 hash)).
(** transaction.go:33-47 SignRawTransaction; utils.go:14-31 serilizeS. *)
Definition sign_raw (hash : list Z) (prikey : bytes) : res bytes :=
  match hex_decode hash with
  | Ok hashBytes =>
      if negb (zlen hashBytes =? 32) then Err else
      match sign prikey hashBytes with
      | None => Err
      | Some signature => serialize_s secp_order secp_half signature
      end
  | Err => Err
  | Panic => Panic
  end.
(** utils.go:33-37 NewPubkey: 33 bytes, the first ones of the argument, then zeros. *)
Definition new_pubkey (pubkey : bytes) : bytes := firstn 33 (pubkey ++ repeat 0 33).
(** transaction.go:49-108 VerifyAndCombineRawTransaction: [None] is "false" with the empty text. *)
Definition combine (emptyTrans signature pubkey : list Z) : res (option (list Z)) :=
  match k_doc K emptyTrans with
  | None => Ok None
  | Some doc =>
      match d_msgs doc with
      | [] => Panic
      | m :: _ =>
          match k_msg K m with
          | None => Ok None
          | Some sendMsg =>
              match hex_decode signature with
              | Panic => Panic
              | Err => Ok None
              | Ok sigBytes =>
                  if negb (zlen sigBytes =? 64) then Ok None else
                  match hex_decode pubkey with
                  | Panic => Panic
                  | Err => Ok None
                  | Ok pubBytes =>
                      if negb (zlen pubBytes =? 33) then Ok None else
                      pk <- slice_from (decompress pubBytes) 1 ;;
                      let hash := sha256 (k_text K ChainID (d_account doc) (d_sequence doc) [sendMsg] (d_memo doc) (d_source doc) (d_data doc)) in
                      if negb (verify pk hash sigBytes) then Ok None else
                      let sig := {| g_pub := new_pubkey pubBytes; g_sig := sigBytes; g_account := d_account doc; g_sequence := d_sequence doc |} in
                      match k_wire K {| x_msgs := [sendMsg]; x_sigs := [sig]; x_memo := d_memo doc; x_source := d_source doc; x_data := d_data doc |} with
                      | None => Ok None
                      | Some bz => Ok (Some (hex_encode bz))
                      end
                  end
              end
          end
      end
  end.
(** transaction.go:110-119 DecodeRawTransaction. *)
Definition decode_tx (trx : bytes) : option std_tx := k_unwire K trx.
End Code.
