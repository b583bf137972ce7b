(** Model of fiiiTransaction. The JSON texts carrying the structures are in FiiiJsonModel.v: here a transaction text stands for the
    structure. External: [H2] double SHA-256 (addresses), [H] SHA-256 as computed by owcrypt.Hash, [verify pub msg sig]
    the Ed25519 check. *)
From Coq Require Import String ZArith List Bool.
From Verif Require Import Go Rd Base58Model Base58CheckModel SignerModel.
Import ListNotations.
Open Scope Z_scope.

(** transaction.go:13-22 Vin, Vout. *)
Record vin := { v_txid : list Z; v_vout : Z }.
Record vout := { w_prefix : bytes; w_address : list Z; w_amount : Z }.
(** txInput.go:9-15 InputMsg (the unexported field is never set). *)
Record input := { i_hash : list Z; i_index : Z; i_size : Z; i_unlock : list Z }.
(** txOutput.go:10-15 OutputMsg. *)
Record output := { o_index : Z; o_amount : Z; o_size : Z; o_lock : list Z }.
(** txStruct.go:11-22 TransactionMsg. *)
Record txmsg := { t_version : Z; t_hash : list Z; t_timestamp : Z; t_lock : Z; t_expired : Z; t_incount : Z; t_outcount : Z;
  t_inputs : list input; t_outputs : list output; t_size : Z }.
(** txUnlock.go:11-14 SigPub. *)
Record sigpub := { s_signature : bytes; s_pubkey : bytes }.

(** strings.ToUpper(hex.EncodeToString(b)). *)
Definition upper_hex (b : bytes) : list Z := to_upper (hex_encode b).
(** txInput.go:17-33 NewInputMsg. *)
Definition new_input (v : vin) : res input :=
  if negb (zlen (v_txid v) =? 64) then Err else
  _ <- hex_decode (v_txid v) ;;
  Ok {| i_hash := v_txid v; i_index := v_vout v; i_size := 0; i_unlock := [] |}.
(** txInput.go:35-39 genMessage. *)
Definition gen_message (v : vin) : list Z := v_txid v ++ hex_encode (be_bytes 4 (u32 (v_vout v))).
(** txInput.go:41-52 genMessageBytes. *)
Definition gen_message_bytes (i : input) : res bytes :=
  msg <- hex_decode (i_hash i) ;; Ok (msg ++ be_bytes 4 (u32 (i_index i))).
(** txInput.go:54-69 InputMsg.ToBytes. The error of hex.DecodeString is ignored: the bytes before the first bad digit
    would be used; here this is an empty string (inputs whose id does not decode are refused before). *)
Definition input_bytes (i : input) : bytes :=
  (match hex_decode (i_hash i) with Ok d => d | _ => [] end) ++ be_bytes 4 (u32 (i_index i)) ++ be_bytes 4 (u32 (i_size i)) ++ i_unlock i.
(** txOutput.go:37-39 genLockScript. *)
Definition lock_script (hash : bytes) : list Z := ascii "OP_DUP OP_HASH160 " ++ upper_hex hash ++ ascii " OP_EQUALVERIFY OP_CHECKSIG".
(** txOutput.go:41-58 OutputMsg.ToBytes. *)
Definition output_bytes (o : output) : bytes :=
  be_bytes 4 (u32 (o_index o)) ++ be_bytes 8 (u64 (o_amount o)) ++ be_bytes 4 (u32 (o_size o)) ++ o_lock o.
(** txUnlock.go:16-26 GenUnlockScript. *)
Definition unlock_script (s : sigpub) : res (list Z) :=
  if negb (zlen (s_signature s) =? 64) then Err else
  if negb (zlen (s_pubkey s) =? 32) then Err else
  Ok (upper_hex (s_signature s) ++ ascii "[ALL] " ++ ascii "302A300506032B6570032100" ++ upper_hex (s_pubkey s)).
(** txStruct.go:24-53, the bytes hashed by Complete. *)
Definition tx_bytes (t : txmsg) : bytes :=
  be_bytes 8 (u64 (t_timestamp t)) ++ be_bytes 8 (u64 (t_lock t)) ++ be_bytes 8 (u64 (t_expired t)) ++ be_bytes 4 (u32 (t_incount t)) ++
  flat_map input_bytes (t_inputs t) ++ be_bytes 4 (u32 (t_outcount t)) ++ flat_map output_bytes (t_outputs t).

Section F.
Variable al : alphabet.
Variable H2 H : bytes -> bytes.
Variable verify : bytes -> bytes -> bytes -> bool.
(** txStruct.go:24-58 Complete. *)
Definition complete (t : txmsg) : txmsg :=
  {| t_version := t_version t; t_hash := upper_hex (H (tx_bytes t)); t_timestamp := t_timestamp t; t_lock := t_lock t; t_expired := t_expired t;
     t_incount := t_incount t; t_outcount := t_outcount t; t_inputs := t_inputs t; t_outputs := t_outputs t; t_size := zlen (tx_bytes t) + 4 + 32 |}.
(** txOutput.go:17-35 NewOutputMsg. *)
Definition new_output (w : vout) (index : Z) : res output :=
  hash <- decode_check_prefix al H2 (w_address w) (w_prefix w) ;;
  if w_amount w <=? 0 then Err else
  Ok {| o_index := index; o_amount := w_amount w; o_size := zlen (lock_script hash); o_lock := lock_script hash |}.
(** transaction.go:53-59, the loop over the outputs. *)
Fixpoint new_outputs (ws : list vout) (i : Z) : res (list output) :=
  match ws with
  | [] => Ok []
  | w :: r => o <- new_output w i ;; t <- new_outputs r (i + 1) ;; Ok (o :: t)
  end.
(** transaction.go:24-65 CreateEmptyTransactionAndMessage; [now] is time.Now().UnixNano() / 1000000. *)
Definition create (now : Z) (inputs : list vin) (outputs : list vout) (version locktime expiredtime : Z) : res (txmsg * list (list Z)) :=
  match inputs, outputs with
  | [], _ => Err
  | _, [] => Err
  | _, _ =>
      is <- mapr new_input inputs ;;
      os <- new_outputs outputs 0 ;;
      Ok ({| t_version := version; t_hash := []; t_timestamp := now; t_lock := locktime; t_expired := expiredtime;
             t_incount := zlen inputs; t_outcount := zlen outputs; t_inputs := is; t_outputs := os; t_size := 0 |}, map gen_message inputs)
  end.
(** transaction.go:102-121, the loop over the signatures. *)
Fixpoint unlock_inputs (is : list input) (sps : list sigpub) : res (list input) :=
  match is, sps with
  | i :: is', s :: sps' =>
      msg <- gen_message_bytes i ;;
      if negb (verify (s_pubkey s) msg (s_signature s)) then Err else
      unlock <- unlock_script s ;;
      t <- unlock_inputs is' sps' ;;
      Ok ({| i_hash := i_hash i; i_index := i_index i; i_size := zlen unlock; i_unlock := unlock |} :: t)
  | _, _ => Ok []
  end.
(** transaction.go:89-130 VerifyAndCombineTransaction. *)
Definition verify_combine (t : txmsg) (sps : list sigpub) : res txmsg :=
  if (zlen sps =? 0) || negb (zlen sps =? zlen (t_inputs t)) then Err else
  is <- unlock_inputs (t_inputs t) sps ;;
  Ok (complete {| t_version := t_version t; t_hash := t_hash t; t_timestamp := t_timestamp t; t_lock := t_lock t; t_expired := t_expired t;
     t_incount := t_incount t; t_outcount := t_outcount t; t_inputs := is; t_outputs := t_outputs t; t_size := t_size t |}).
End F.
