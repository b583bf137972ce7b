(** Model of bytomTransaction (bech32.go is modelled in Bech32mModel, txUtil.go:7-30 in Uvarint). *)
From Coq Require Import String ZArith List Bool.
From Verif Require Import Go Rd Uvarint Bech32mModel.
Import ListNotations.
Open Scope Z_scope.

(** transaction.go:10-16 Vin, 18-21 Vout. *)
Record vin := { v_source : list Z; v_position : Z; v_asset : list Z; v_amount : Z; v_program : list Z }.
Record vout := { w_address : list Z; w_amount : Z }.
(** sigPub.go:9-12 SigPub; a nil signature is [None]. A nil key is modelled as the empty one: both are rejected by toBytes. *)
Record sigpub := { p_sig : option bytes; p_pub : bytes }.
(** txIn.go:8-16 TxIn, txOut.go:8-12 TxOut, txStruct.go:9-14 Transaction. *)
Record txin := { i_source : bytes; i_position : bytes; i_asset : bytes; i_amount : bytes; i_program : bytes; i_sig : option sigpub; i_multi : option bytes }.
Record txout := { o_asset : bytes; o_program : bytes; o_amount : bytes }.
Record tx := { t_version : bytes; t_range : bytes; t_ins : list txin; t_outs : list txout }.
(** txHash.go:10-25 NormalTx, MultiTx and TxHash. *)
Record txhash := { h_hash : list Z; h_required : Z; h_normal : option (list Z * sigpub); h_multi : list (list Z * sigpub) }.

(** transaction.go:25-35, the check of one address; txProfile.go:4-5. *)
Definition check_prefix (testnet : bool) (v : vout) : res unit :=
  p <- slice (w_address v) 0 2 ;;
  if beq p (if testnet then str "tm" else str "bm") then Ok tt else Err.
Fixpoint check_all (testnet : bool) (l : list vout) : res unit :=
  match l with [] => Ok tt | v :: r => _ <- check_prefix testnet v ;; check_all testnet r end.
(** txIn.go:73-98, one turn of the loop of newTxInForEmptyTrans. *)
Definition new_in (v : vin) : res txin :=
  source <- hex_decode (v_source v) ;;
  position <- uint64_to_uvarint (v_position v) ;;
  asset <- hex_decode (v_asset v) ;;
  amount <- uint64_to_uvarint (v_amount v) ;;
  program <- hex_decode (v_program v) ;;
  Ok {| i_source := source; i_position := position; i_asset := asset; i_amount := amount; i_program := program; i_sig := None; i_multi := None |}.
(** txOut.go:18-35 SetControlProgram: the program with its length in front. *)
Definition control_program (address : list Z) : res bytes :=
  '(version, program) <- bytom_decode_segwit address ;;
  if negb (version =? 0) then Err else
  if negb (zlen program =? 20) && negb (zlen program =? 32) then Err else
  let cp := 0 :: u8 (zlen program) :: program in
  Ok (u8 (zlen cp) :: cp).
(** txOut.go:52-62, one turn of the loop of newTxOutForEmptyTrans; txProfile.go:23 BTMAssetID. *)
Definition new_out (v : vout) : res txout :=
  program <- control_program (w_address v) ;;
  amount <- uint64_to_uvarint (w_amount v) ;;
  Ok {| o_asset := repeat 0xff 32; o_program := program; o_amount := amount |}.
(** txStruct.go:28-48 newEmptyTransaction; the version is uint64ToUvarint(1). *)
Definition new_tx (vins : list vin) (vouts : list vout) (timeRange : Z) : res tx :=
  ins <- match vins with [] => Err | _ => mapr new_in vins end ;;
  outs <- match vouts with [] => Err | _ => mapr new_out vouts end ;;
  range <- uint64_to_uvarint timeRange ;;
  Ok {| t_version := [1]; t_range := range; t_ins := ins; t_outs := outs |}.
(** sigPub.go:14-31 toBytes. *)
Definition sigpub_bytes (s : sigpub) : res bytes :=
  match p_sig s with
  | None => Err
  | Some sig => if negb (zlen sig =? 64) || negb (zlen (p_pub s) =? 32) then Err else Ok ([0x63; 0x02; 0x40] ++ sig ++ [0x20] ++ p_pub s)
  end.
(** txIn.go:102-154 toBytes. *)
Definition in_bytes (i : txin) : res bytes :=
  if negb (zlen (i_source i) =? 32) then Err else
  if negb (zlen (i_asset i) =? 32) then Err else
  if negb (zlen (i_program i) =? 22) && negb (zlen (i_program i) =? 34) then Err else
  if zlen (i_position i) =? 0 then Err else
  if zlen (i_amount i) =? 0 then Err else
  let r1 := i_source i ++ i_asset i ++ i_amount i ++ i_position i ++ [0x01; u8 (zlen (i_program i))] ++ i_program i in
  let r2 := 0x01 :: u8 (zlen r1) :: r1 in
  let r3 := u8 (zlen r2) :: r2 in
  w <- match i_sig i, i_multi i with
       | None, None => Ok [0x01; 0x00]
       | None, Some m => Ok m
       | Some s, _ => sigpub_bytes s
       end ;;
  Ok (0x01 :: r3 ++ w).
(** txOut.go:65-90 toBytes. *)
Definition out_bytes (o : txout) : res bytes :=
  if zlen (o_amount o) =? 0 then Err else
  if negb (zlen (o_asset o) =? 32) then Err else
  if zlen (o_program o) =? 0 then Err else
  let r := o_asset o ++ o_amount o ++ [0x01] ++ o_program o in
  Ok (0x01 :: u8 (zlen r) :: r ++ [0x00]).
(** txStruct.go:50-92 toBytes. *)
Definition tx_bytes (t : tx) : res bytes :=
  if zlen (t_ins t) =? 0 then Err else
  if zlen (t_outs t) =? 0 then Err else
  if zlen (t_range t) =? 0 then Err else
  if zlen (t_version t) =? 0 then Err else
  is <- mapr in_bytes (t_ins t) ;;
  os <- mapr out_bytes (t_outs t) ;;
  Ok (0x07 :: t_version t ++ t_range t ++ u8 (zlen (t_ins t)) :: concat is ++ u8 (zlen (t_outs t)) :: concat os).
(** transaction.go:23-48 CreateEmptyRawTransaction. *)
Definition create (vins : list vin) (vouts : list vout) (timeRange : Z) (testnet : bool) : res (list Z) :=
  _ <- check_all testnet vouts ;;
  t <- new_tx vins vouts timeRange ;;
  b <- tx_bytes t ;;
  Ok (hex_encode b).

(** txStruct.go:115-127, the version: the index moves on, so only the last byte is kept. *)
Fixpoint scan_version {A} (rest : bytes) (k : bytes -> bytes -> res A) : res A :=
  match rest with [] => Err | b :: r => if b <? 0x80 then k [b] r else scan_version r k end.
(** txStruct.go:133-147, txIn.go:196-210, txOut.go:102-117: a group of bytes ending with one below 0x80; only the first
    byte is checked to be there. *)
Fixpoint scan_more {A} (acc rest : bytes) (k : bytes -> bytes -> res A) : res A :=
  match rest with [] => Panic | b :: r => if b <? 0x80 then k (acc ++ [b]) r else scan_more (acc ++ [b]) r k end.
Definition scan_var {A} (rest : bytes) (k : bytes -> bytes -> res A) : res A :=
  match rest with [] => Err | _ => scan_more [] rest k end.
(** txIn.go:156-244 decodeCommitment. *)
Definition decode_commitment (script : bytes) : res (bytes * bytes * bytes * bytes * bytes) :=
  need1 script (fun v rest =>
  if negb (v =? 1) then Err else
  need1 rest (fun l rest =>
  if negb (l =? u8 (zlen script - 2)) then Err else
  need 32 rest (fun source rest =>
  need 32 rest (fun asset rest =>
  scan_var rest (fun amount rest =>
  need1 rest (fun position rest =>
  need1 rest (fun vm rest =>
  if negb (vm =? 1) then Err else
  need1 rest (fun n rest =>
  if n =? 0 then Err else
  if negb (zlen rest =? n) then Err else
  Ok (source, asset, amount, [position], rest))))))))).
(** txOut.go:92-147 decodeOutputScript; the program is returned with its length byte. *)
Definition decode_output_script (script : bytes) : res (bytes * bytes * bytes) :=
  need 32 script (fun asset rest =>
  scan_var rest (fun amount rest =>
  need1 rest (fun v rest =>
  if negb (v =? 1) then Err else
  need1 rest (fun n rest =>
  if n =? 0 then Err else
  need n rest (fun p rest =>
  if negb (zlen rest =? 0) then Err else
  Ok (asset, amount, n :: p)))))).
(** txStruct.go:163-254, one turn of the loop over the inputs. *)
Definition decode_in (rest : bytes) : res (txin * bytes) :=
  need1 rest (fun v rest =>
  if negb (v =? 1) then Err else
  need1 rest (fun n rest =>
  if n =? 0 then Err else
  need n rest (fun script rest =>
  '(source, asset, amount, position, program) <- decode_commitment script ;;
  let mk s m := {| i_source := source; i_position := position; i_asset := asset; i_amount := amount; i_program := program; i_sig := s; i_multi := m |} in
  need1 rest (fun w rest =>
  if w =? 0x01 then need1 rest (fun z rest => if negb (z =? 0) then Err else Ok (mk None None, rest))
  else if w =? 0 then Err
  else match rest with
       | a :: b :: after =>
           if (a =? 0x02) && (b =? 0x40) then
             need 64 after (fun sig rest =>
             need1 rest (fun c rest =>
             if negb (c =? 32) then Err else
             need 32 rest (fun pub rest =>
             Ok (mk (Some {| p_sig := Some sig; p_pub := pub |}) None, rest))))
           else if (a =? 0x01) && (b =? 0x03) then
             need (w + 1) rest (fun m rest => Ok (mk None (Some m), rest))
           else Err
       | _ => Err
       end)))).
(** txStruct.go:267-307, one turn of the loop over the outputs. *)
Definition decode_out (rest : bytes) : res (txout * bytes) :=
  need1 rest (fun v rest =>
  if negb (v =? 1) then Err else
  need1 rest (fun n rest =>
  if n =? 0 then Err else
  need n rest (fun script rest =>
  '(asset, amount, program) <- decode_output_script script ;;
  need1 rest (fun w rest =>
  if negb (w =? 0) then Err else
  Ok ({| o_asset := asset; o_program := program; o_amount := amount |}, rest))))).
(** txStruct.go:94-313 DecodeRawTransaction. *)
Definition decode_tx (b : bytes) : res tx :=
  need1 b (fun flags rest =>
  if negb (flags =? 0x07) then Err else
  scan_version rest (fun version rest =>
  scan_var rest (fun range rest =>
  need1 rest (fun n rest =>
  if n <=? 0 then Err else
  '(ins, rest) <- readn (Z.to_nat n) decode_in rest ;;
  need1 rest (fun m rest =>
  if m =? 0 then Err else
  '(outs, rest) <- readn (Z.to_nat m) decode_out rest ;;
  if negb (zlen rest =? 0) then Err else
  Ok {| t_version := version; t_range := range; t_ins := ins; t_outs := outs |}))))).

(** txProfile.go:6-10. *)
Definition pre (s : string) : bytes := str "entryid:" ++ str s.
(** txProfile.go:18-21 opcodes. *)
Definition op_1 : Z := 0x51.
Definition op_txsighash : Z := 0xAE.
Definition op_checkmultisig : Z := 0xAD.

Section H.
Variable H : bytes -> bytes. (* SHA3-256 *)
(** txStruct.go:315-365 getInputID, of an input in range. *)
Definition input_id (i : txin) : res bytes :=
  if negb (zlen (i_source i) =? 32) then Err else
  if negb (zlen (i_asset i) =? 32) then Err else
  if zlen (i_program i) =? 0 then Err else
  let m := i_source i ++ i_asset i ++ le_bytes 8 (uvarint_to_uint64 (i_amount i)) ++ le_bytes 8 (uvarint_to_uint64 (i_position i)) ++ le_bytes 8 1 ++ u8 (zlen (i_program i)) :: i_program i in
  Ok (H (pre "spend1:" ++ H (H (pre "output1:" ++ H m)))).
(** txStruct.go:367-404 getMuxID. *)
Definition mux_id (ins : list txin) : res bytes :=
  ids <- mapr input_id ins ;;
  let m := u8 (zlen ids) :: concat (map (fun p => fst p ++ i_asset (snd p) ++ le_bytes 8 (uvarint_to_uint64 (i_amount (snd p))) ++ le_bytes 8 (uvarint_to_uint64 (i_position (snd p)))) (combine ids ins)) ++ le_bytes 8 1 ++ [0x01; op_1] in
  Ok (H (pre "mux1:" ++ H m)).
(** txStruct.go:406-449 getOutID, of an output in range. *)
Definition out_id (ins : list txin) (index : Z) (o : txout) : res bytes :=
  mux <- mux_id ins ;;
  if negb (zlen (o_asset o) =? 32) then Err else
  if zlen (o_amount o) =? 0 then Err else
  if zlen (o_program o) =? 0 then Err else
  let m := mux ++ o_asset o ++ le_bytes 8 (uvarint_to_uint64 (o_amount o)) ++ le_bytes 8 index ++ le_bytes 8 1 ++ o_program o in
  Ok (H (pre "output1:" ++ H m)).
Fixpoint out_ids (ins : list txin) (index : Z) (outs : list txout) : res (list bytes) :=
  match outs with [] => Ok [] | o :: r => x <- out_id ins index o ;; t <- out_ids ins (index + 1) r ;; Ok (x :: t) end.
(** txStruct.go:451-488 getTxID. A decoded transaction has a time range. *)
Definition tx_id (t : tx) : res bytes :=
  ids <- out_ids (t_ins t) 0 (t_outs t) ;;
  let m := le_bytes 8 1 ++ le_bytes 8 (uvarint_to_uint64 (t_range t)) ++ u8 (zlen (t_outs t)) :: concat ids in
  Ok (H (pre "txheader:" ++ H m)).
(** txStruct.go:490-502 getSigHash, for the input [i] of the transaction. *)
Definition sig_hash (t : tx) (i : txin) : res bytes :=
  s <- input_id i ;;
  x <- tx_id t ;;
  Ok (H (s ++ x)).
(** txStruct.go:504-515 cloneEmpty. *)
Definition clone_empty (t : tx) : tx :=
  {| t_version := t_version t; t_range := t_range t;
     t_ins := map (fun i => {| i_source := i_source i; i_position := i_position i; i_asset := i_asset i; i_amount := i_amount i; i_program := i_program i; i_sig := None; i_multi := None |}) (t_ins t);
     t_outs := t_outs t |}.
(** transaction.go:62-88, one turn of the loop of CreateRawTransactionHashForSig. *)
Definition hash_for_sig (testnet : bool) (t : tx) (i : txin) : res txhash :=
  h <- sig_hash t i ;;
  if zlen (i_program i) =? 34 then Ok {| h_hash := hex_encode h; h_required := 1; h_normal := None; h_multi := [] |}
  else
    p <- slice_from (i_program i) 2 ;;
    a <- bytom_encode_segwit (if testnet then str "tm" else str "bm") 0 p ;;
    Ok {| h_hash := hex_encode h; h_required := 0; h_normal := Some (a, {| p_sig := None; p_pub := [] |}); h_multi := [] |}.
(** transaction.go:50-91 CreateRawTransactionHashForSig. *)
Definition hashes_for_sig (txHex : list Z) (testnet : bool) : res (list txhash) :=
  b <- hex_decode txHex ;;
  t <- decode_tx b ;;
  mapr (hash_for_sig testnet t) (t_ins t).
(** txMultiSig.go:23-37 and txHash.go:51-63: the script. *)
Definition script_of (keys : list bytes) (required : Z) : res bytes :=
  ks <- mapr (fun k => if zlen k =? 32 then Ok (0x20 :: k) else Err) keys ;;
  Ok (op_txsighash :: concat ks ++ [u8 (op_1 - 1 + required); u8 (op_1 - 1 + zlen keys); op_checkmultisig]).
(** txHash.go:72-90, the loop over the signatures: the bytes and the count. *)
Fixpoint collect (required : Z) (l : list (list Z * sigpub)) (count : Z) : res (bytes * Z) :=
  match l with
  | [] => Ok ([], count)
  | (_, s) :: r =>
      match p_sig s with
      | None => collect required r count
      | Some sig =>
          if negb (zlen sig =? 64) then Err else
          if u8 (count + 1) =? required then Ok (0x40 :: sig, count + 1) else
          '(b, c) <- collect required r (count + 1) ;; Ok (0x40 :: sig ++ b, c)
      end
  end.
(** txHash.go:46-101 getMultiSigBytes of a multisig hash: the witness and the control program. *)
Definition multisig_bytes (h : txhash) : res (bytes * bytes) :=
  script <- script_of (map (fun m => p_pub (snd m)) (h_multi h)) (h_required h) ;;
  '(sigs, count) <- collect (h_required h) (h_multi h) 0 ;;
  if u8 count <? h_required h then Err else
  let sb := [0x01; 0x03] ++ sigs ++ u8 (zlen script) :: script in
  Ok (u8 (zlen sb - 1) :: sb, [0x00; 0x20] ++ H script).
(** transaction.go:124-139, the loop of InsertSignatureIntoEmptyTransaction. *)
Fixpoint insert_all (ins : list txin) (hs : list txhash) : res (list txin) :=
  match hs, ins with
  | [], _ => Ok ins
  | h :: hr, _ =>
      if negb (h_required h =? 0) then
        '(m, p) <- multisig_bytes h ;;
        match ins with
        | [] => Panic
        | i :: ir =>
            t <- insert_all ir hr ;;
            Ok ({| i_source := i_source i; i_position := i_position i; i_asset := i_asset i; i_amount := i_amount i; i_program := p; i_sig := None; i_multi := Some m |} :: t)
        end
      else
        match h_normal h, ins with
        | Some (_, s), i :: ir =>
            t <- insert_all ir hr ;;
            Ok ({| i_source := i_source i; i_position := i_position i; i_asset := i_asset i; i_amount := i_amount i; i_program := i_program i; i_sig := Some s; i_multi := None |} :: t)
        | _, _ => Panic
        end
  end.
(** transaction.go:102-146 InsertSignatureIntoEmptyTransaction. *)
Definition insert (txHex : list Z) (hs : list txhash) : res (list Z) :=
  b <- hex_decode txHex ;;
  t <- decode_tx b ;;
  if zlen hs =? 0 then Err else
  if zlen (t_ins t) =? 0 then Err else
  if zlen (t_outs t) =? 0 then Err else
  ins <- insert_all (t_ins t) hs ;;
  s <- tx_bytes {| t_version := t_version t; t_range := t_range t; t_ins := ins; t_outs := t_outs t |} ;;
  Ok (hex_encode s).

(** txMultiSig.go:10-55 CreateMultiSig; [required] is a byte. *)
Definition create_multisig (required : Z) (keys : list bytes) (testnet : bool) : res (list Z * list Z) :=
  if zlen keys =? 0 then Err else
  if required <=? 0 then Err else
  if zlen keys <? required then Err else
  script <- script_of keys required ;;
  a <- bytom_encode_segwit (if testnet then str "tm" else str "bm") 0 (H script) ;;
  Ok (a, hex_encode script).
(** txMultiSig.go:73-91 and 183-203: the keys of a script, up to the first byte that is not 0x20; [fuel] exceeds the
    number of bytes left. *)
Fixpoint scan_keys {A} (fuel : nat) (acc : list bytes) (rest : bytes) (k : list bytes -> bytes -> res A) : res A :=
  match fuel with
  | O => Err
  | S f => need1 rest (fun b after => if negb (b =? 0x20) then k acc rest else need 32 after (fun key r => scan_keys f (acc ++ [key]) r k))
  end.
(** txMultiSig.go:57-125 getMultiSigDetail: the keys and the required number. *)
Definition multisig_detail (script : bytes) : res (list bytes * Z) :=
  need1 script (fun op rest =>
  if negb (op =? op_txsighash) then Err else
  scan_keys (S (length rest)) [] rest (fun keys rest =>
  must1 rest (fun r rest =>
  let required := u8 (r - (op_1 - 1)) in
  if required <=? 0 then Err else
  need1 rest (fun c rest =>
  if negb (u8 (c - (op_1 - 1)) =? u8 (zlen keys)) then Err else
  need1 rest (fun o rest =>
  if negb (o =? op_checkmultisig) then Err else
  if negb (zlen rest =? 0) then Err else
  Ok (keys, required)))))).
(** txHash.go:31-45 PadMultiSig: the members of a script, named by their keys in hexadecimal; the keys that go with the
    signatures stay empty. *)
Definition pad_multisig (h : txhash) (scriptHex : list Z) : res txhash :=
  b <- hex_decode scriptHex ;;
  '(keys, required) <- multisig_detail b ;;
  Ok {| h_hash := h_hash h; h_required := required; h_normal := h_normal h; h_multi := map (fun k => (hex_encode k, {| p_sig := None; p_pub := [] |})) keys |}.
(** txMultiSig.go:145-163: the signatures. *)
Fixpoint scan_sigs {A} (fuel : nat) (acc : list bytes) (rest : bytes) (k : list bytes -> bytes -> res A) : res A :=
  match fuel with
  | O => Err
  | S f => need1 rest (fun b after => if b =? 0x40 then need 64 after (fun s r => scan_sigs f (acc ++ [s]) r k) else k acc rest)
  end.
(** txMultiSig.go:127-242 getMultiSigPubs; [sp] is the field MultiSig, empty when nil. *)
Definition multisig_pubs (sp : bytes) : res (list bytes * list bytes) :=
  match sp with
  | a :: b :: rest =>
      if negb (a =? 0x01) || negb (b =? 0x03) then Err else
      scan_sigs (S (length rest)) [] rest (fun sigs rest =>
      need1 rest (fun n rest =>
      if negb (zlen rest =? n) then Err else
      need1 rest (fun op rest =>
      if negb (op =? op_txsighash) then Err else
      scan_keys (S (length rest)) [] rest (fun pubs rest =>
      must1 rest (fun r rest =>
      let required := u8 (r - (op_1 - 1)) in
      need1 rest (fun c rest =>
      let count := u8 (c - (op_1 - 1)) in
      if negb (count =? zlen pubs) then Err else
      if negb (required =? zlen sigs) then Err else
      need1 rest (fun o rest =>
      if negb (o =? op_checkmultisig) then Err else
      if negb (zlen rest =? 0) then Err else
      Ok (sigs, pubs))))))))
  | _ => Err
  end.
Variable verify : bytes -> bytes -> bytes -> bool. (* owcrypt.Verify with Ed25519: key, message, signature *)
(** transaction.go:186-193: the number of pairs (j, k) with k >= j for which the signature j is valid for the key k. *)
Fixpoint pairs (hash : bytes) (sigs pubs : list bytes) : Z :=
  match sigs with
  | [] => 0
  | s :: r => zlen (filter (fun k => verify k hash s) pubs) + pairs hash r (tl pubs)
  end.
(** transaction.go:179-206, one turn of the last loop of VerifyRawTransaction; an unsigned input has a nil pointer. *)
Definition verify_in (hash : bytes) (i : txin) : res bool :=
  if zlen (i_program i) =? 0x22 then
    match multisig_pubs (match i_multi i with Some m => m | None => [] end) with
    | Panic => Panic
    | Err => Ok false
    | Ok (sigs, pubs) => Ok (pairs hash sigs pubs =? zlen sigs)
    end
  else match i_sig i with
       | None => Panic
       | Some s => Ok (verify (p_pub s) hash (match p_sig s with Some x => x | None => [] end))
       end.
Fixpoint verify_all (hs : list bytes) (ins : list txin) : res bool :=
  match hs, ins with
  | h :: hr, i :: ir => ok <- verify_in h i ;; if ok then verify_all hr ir else Ok false
  | _, _ => Ok true
  end.
(** transaction.go:148-209 VerifyRawTransaction. *)
Definition verify_tx (txHex : list Z) : res bool :=
  match hex_decode txHex with
  | Panic => Panic
  | Err => Ok false
  | Ok b =>
      match decode_tx b with
      | Panic => Panic
      | Err => Ok false
      | Ok t =>
          let e := clone_empty t in
          match mapr (sig_hash e) (t_ins e) with
          | Panic => Panic
          | Err => Ok false
          | Ok hs => verify_all hs (t_ins t)
          end
      end
  end.
End H.
