(** Model of the JSON text virtualeconomyTransaction sends, and of signing. The JSON writer of Go is GoJson.v. *)
From Coq Require Import String ZArith List Bool.
From Verif Require Import Go Rd Base58Model GoJson VsysModel.
Import ListNotations.
Open Scope Z_scope.

(** transaction.go:115-124: a map is written with its keys in order. *)
Definition body_json (b : body) : list Z :=
  go_object [
    (str "amount", format_int (j_amount b));
    (str "attachment", go_string (j_attachment b));
    (str "fee", format_int (j_fee b));
    (str "feeScale", format_int (j_scale b));
    (str "recipient", go_string (j_recipient b));
    (str "senderPublicKey", go_string (j_key b));
    (str "signature", go_string (j_signature b));
    (str "timestamp", format_int (j_timestamp b))].
(** transaction.go:99-129 CreateJSONRawForSendTransaction: the text that is given to gjson. *)
Definition json_text (al : alphabet) (emptyTrans : list Z) (pub sig : bytes) : res (list Z) :=
  b <- json_body al emptyTrans pub sig ;; Ok (body_json b).
(** transaction.go:58-80 SignTransaction: signature and public key; [sign] is owcrypt.Signature with X25519, [public key] the converted point. *)
Definition sign_tx (sign : bytes -> bytes -> option bytes) (public : bytes -> bytes) (emptyTrans : list Z) (key : bytes) : res (bytes * bytes) :=
  b <- hex_decode emptyTrans ;;
  match sign key b with Some s => Ok (s, public key) | None => Err end.
