(** Model of the JSON text filenetTransaction returns, and of signing. The JSON writer of Go is GoJson.v. *)
From Coq Require Import String ZArith List Bool.
From Verif Require Import Go Rd Base58Model GoJson FilenetModel.
Import ListNotations.
Open Scope Z_scope.

(** txStruct.go:106-109 TransferDetail as JSON. *)
Definition detail_json (d : list Z * Z) : list Z := go_object [(str "to", go_string (fst d)); (str "value", format_int (snd d))].
(** txStruct.go:94-102 Transfer as JSON; the slice comes from make (line 160) and is never nil. *)
Definition transfer_json (t : transfer) : list Z :=
  go_object [
    (str "txid", go_string (t_txid t));
    (str "from", go_string (t_from t));
    (str "tocount", format_int (t_count t));
    (str "value", format_int (t_value t));
    (str "timestamp", format_int (t_timestamp t));
    (str "transferdetails", go_array (Some (map detail_json (t_details t))));
    (str "sign", go_string (t_sign t))].
(** transaction.go:36-52 SignTransaction; [sign key hash] is the signature of owcrypt.Signature if it succeeds. *)
Definition sign_hash (sign : bytes -> bytes -> option bytes) (hash : list Z) (key : bytes) : res (list Z) :=
  if zlen hash =? 0 then Err else
  if negb (zlen key =? 32) then Err else
  h <- hex_decode hash ;;
  if negb (zlen h =? 32) then Err else
  match sign key h with Some s => Ok (hex_encode s) | None => Err end.
(** transaction.go:54-83 VerifyAndCombineTransaction with its text; [None] is the result ("", false). *)
Definition combine_text (al : alphabet) (H : bytes -> bytes) (max_len : Z) (decompress : bytes -> bytes) (verify : bytes -> bytes -> bytes -> bool) (emptyTrans signature pubkey : list Z) : res (option (list Z)) :=
  r <- verify_and_combine al H max_len decompress verify emptyTrans signature pubkey ;;
  Ok (match r with Some t => Some (transfer_json t) | None => None end).
