(** Model of the Omni layer payloads of omniTransaction (the same files are in bitcoincashTransaction and
    bitcoinsvTransaction) and of hypercashTransaction/txOmni.go. *)
From Coq Require Import ZArith List Bool.
From Verif Require Import Go Base58Model Base58CheckModel CodecModel.
Import ListNotations.
Open Scope Z_scope.

(** omniTransaction/txOmni.go:3-10 OmniStruct. *)
Record omni := { o_type : Z; o_property : Z; o_amount : Z; o_ecosystem : Z; o_memo : bytes; o_address : list Z }.
(** omniTransaction/txPayload.go: the two first fields of every payload: version 0 and message type. *)
Definition head (t : Z) : bytes := put_be 2 0 ++ put_be 2 t.
(** txPayload.go:3-15 createPayloadSimpleSend, 30-42 createPayloadDExAccept. *)
Definition create_simple_send (p a : Z) : bytes := head 0 ++ put_be 4 p ++ put_be 8 a.
Definition create_dex_accept (p a : Z) : bytes := head 22 ++ put_be 4 p ++ put_be 8 a.
(** txPayload.go:17-28 createPayloadSendAll, 180-191 createPayloadMetaDExCancelEcosystem. *)
Definition create_send_all (e : Z) : bytes := head 4 ++ [e].
Definition create_cancel_ecosystem (e : Z) : bytes := head 28 ++ [e].
(** txPayload.go:44-55, 97-108, 110-121, 123-134: CloseCrowdsale, ChangeIssuer, EnableFreezing, DisableFreezing. *)
Definition create_close_crowdsale (p : Z) : bytes := head 53 ++ put_be 4 p.
Definition create_change_issuer (p : Z) : bytes := head 70 ++ put_be 4 p.
Definition create_enable_freezing (p : Z) : bytes := head 71 ++ put_be 4 p.
Definition create_disable_freezing (p : Z) : bytes := head 72 ++ put_be 4 p.
(** txPayload.go:57-75, 77-95: Grant, Revoke; the memo is cut at 255 bytes and ended by a zero byte. *)
Definition cut_memo (m : bytes) : bytes := if zlen m >? 255 then firstn 255 m else m.
Definition create_grant (p a : Z) (m : bytes) : bytes := head 55 ++ put_be 4 p ++ put_be 8 a ++ cut_memo m ++ [0].
Definition create_revoke (p a : Z) (m : bytes) : bytes := head 56 ++ put_be 4 p ++ put_be 8 a ++ cut_memo m ++ [0].
(** txPayload.go:136-156, 158-178: FreezeTokens, UnfreezeTokens; nil if the address is refused. *)
Definition create_freeze (al : alphabet) (H : bytes -> bytes) (p a : Z) (addr : list Z) : res bytes :=
  match decode_check al H addr with Ok (pre, h) => Ok (head 185 ++ put_be 4 p ++ put_be 8 a ++ pre ++ h) | Err => Ok [] | Panic => Panic end.
Definition create_unfreeze (al : alphabet) (H : bytes -> bytes) (p a : Z) (addr : list Z) : res bytes :=
  match decode_check al H addr with Ok (pre, h) => Ok (head 186 ++ put_be 4 p ++ put_be 8 a ++ pre ++ h) | Err => Ok [] | Panic => Panic end.
(** txProfile.go:95 OmniPrefix; txOmni.go:53-55. *)
Definition wrap (p : bytes) : bytes := let q := [0x6f; 0x6d; 0x6e; 0x69] ++ p in [0x6a; u8 (zlen q)] ++ q.
(** txOmni.go:12-56 getPayload; the nil of an unknown type is the empty list. Type numbers: txProfile.go:15-28. *)
Definition get_payload (al : alphabet) (H : bytes -> bytes) (o : omni) : res bytes :=
  let p := o_property o in let a := o_amount o in
  if o_type o =? 0 then Ok (wrap (create_simple_send p a)) else
  if o_type o =? 4 then Ok (wrap (create_send_all (o_ecosystem o))) else
  if o_type o =? 22 then Ok (wrap (create_dex_accept p a)) else
  if o_type o =? 28 then Ok (wrap (create_cancel_ecosystem (o_ecosystem o))) else
  if o_type o =? 53 then Ok (wrap (create_close_crowdsale p)) else
  if o_type o =? 55 then Ok (wrap (create_grant p a (o_memo o))) else
  if o_type o =? 56 then Ok (wrap (create_revoke p a (o_memo o))) else
  if o_type o =? 70 then Ok (wrap (create_change_issuer p)) else
  if o_type o =? 71 then Ok (wrap (create_enable_freezing p)) else
  if o_type o =? 72 then Ok (wrap (create_disable_freezing p)) else
  if o_type o =? 185 then x <- create_freeze al H p a (o_address o) ;; Ok (wrap x) else
  if o_type o =? 186 then x <- create_unfreeze al H p a (o_address o) ;; Ok (wrap x) else
  Ok [].
(** omniTransaction/txOut.go:64, 69-83: the last output is the payload with amount 0; toBytes refuses an empty script. *)
Definition payload_out (script : bytes) : res bytes :=
  match script with [] => Err | _ => Ok (put_le 8 0 ++ [u8 (zlen script)] ++ script) end.

(** hypercashTransaction/txOmni.go:4-21 createPayloadSimpleSend: with the length of the script in front. *)
Definition hc_simple_send (p a : Z) : bytes :=
  let r := [0x6f; 0x6d; 0x6e; 0x69] ++ put_be 2 0 ++ put_be 2 0 ++ put_be 4 p ++ put_be 8 a in
  let r := [u8 (zlen r)] ++ r in let r := [0x6a] ++ r in [u8 (zlen r)] ++ r.
