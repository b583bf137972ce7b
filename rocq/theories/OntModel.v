(** Model of ontologyTransaction. *)
From Coq Require Import String ZArith List Bool.
From Verif Require Import Go Rd Base58Model Base58CheckModel.
Import ListNotations.
Open Scope Z_scope.

(** txUtils.go:78-92 getLength. *)
Definition get_length (l : Z) : bytes :=
  if l <? 0x4B then [u8 l] else
  if l <? 0x100 then [0x4C; u8 l] else
  if l <? 0x10000 then 0x4D :: le_bytes 2 (u16 l) else 0x4E :: le_bytes 4 (u32 l).
(** txUtils.go:96-121 bigIntToNeoBytes. *)
Definition neo_bytes (data : Z) : bytes :=
  match big_bytes data with
  | [] => []
  | b :: r =>
      let bs :=
        if data <? 0 then
          let temp := be_num (map (fun x => 255 - x) (b :: r)) + 1 in
          let bs := rev (big_bytes temp) in
          if b / 128 =? 0 then bs ++ [255] else bs
        else
          let bs := rev (b :: r) in
          if b / 128 =? 1 then bs ++ [0] else bs in
      get_length (zlen bs) ++ bs
  end.
(** txUtils.go:123-134 uint64ToEmitBytes. *)
Definition uint64_emit (data : Z) : bytes :=
  if data =? 0 then [0] else if data <? 16 then [0x51 - 1 + data] else neo_bytes data.
(** txUtils.go:136-149 bigIntToEmitBytes. *)
Definition bigint_emit (data : Z) : bytes :=
  if data =? -1 then [0x4F] else if data =? 0 then [0] else if (0 <? data) && (data <? 16) then [0x51 - 1 + data] else neo_bytes data.

(** transaction.go:12-26 TxState and TxStateV2; an amount of TxState is a uint64, of TxStateV2 a big integer. *)
Record state := { x_asset : Z; x_payer : list Z; x_from : list Z; x_to : list Z; x_amount : Z }.
(** txProfile.go:18-19, reversed as txInvokeCode.go:38, 59, 82 do. *)
Definition ont_contract : bytes := rev (1 :: repeat 0 19).
Definition ong_contract : bytes := rev (2 :: repeat 0 19).
(** txInvokeCode.go:21-61: the contract and the method; [v2] selects NewNativeInvokeV2. *)
Definition contract_of (asset : Z) : bytes := if asset =? 0 then ont_contract else ong_contract.
Definition method_of (v2 : bool) (asset : Z) : list Z :=
  if (asset =? 0) || (asset =? 1) then (if v2 then str "transferV2" else str "transfer") else str "transferFrom".
Record sigpub := { p_signature : bytes; p_key : bytes }.
(** txSigPub.go:54-70 toBytes. *)
Definition sigpub_bytes (p : sigpub) : bytes :=
  let ret := u8 (zlen (p_signature p)) :: p_signature p in
  let pub := u8 (zlen (p_key p)) :: p_key p ++ [0xAC] in
  (u8 (zlen ret) :: ret) ++ u8 (zlen pub) :: pub.
(** txStruct.go:8-18 Transaction; every SigData has Nrequired 0. *)
Record tx := { t_version : Z; t_type : Z; t_nonce : bytes; t_price : bytes; t_limit : bytes; t_payer : bytes; t_payload : bytes; t_attr : Z; t_sigs : list (list sigpub) }.
(** txStruct.go:59-103 ToBytes. *)
Definition tx_bytes (t : tx) : res bytes :=
  if negb (zlen (t_nonce t) =? 4) then Err else
  if negb (zlen (t_price t) =? 8) then Err else
  if negb (zlen (t_limit t) =? 8) then Err else
  if negb (zlen (t_payer t) =? 20) then Err else
  if zlen (t_payload t) =? 0 then Err else
  let ret := t_version t :: t_type t :: t_nonce t ++ t_price t ++ t_limit t ++ t_payer t ++ u8 (zlen (t_payload t)) :: t_payload t ++ [t_attr t] in
  Ok (ret ++ match t_sigs t with [] => [0] | sps :: _ => u8 (zlen sps) :: flat_map sigpub_bytes sps end).
(** txSigPub.go:72-119 decodeSigPubBytes. *)
Definition decode_sigpub (sp : bytes) : res sigpub :=
  need 2 sp (fun h r =>
  if negb (beq h [0x41; 0x40]) then Err else
  need 64 r (fun s r =>
  need 2 r (fun h r =>
  if negb (beq h [0x23; 0x21]) then Err else
  must 33 r (fun k r =>
  match r with
  | [c] => if c =? 0xAC then Ok {| p_signature := s; p_key := k |} else Err
  | _ => Err
  end)))).
(** txStruct.go:207-217, the loop over the signatures. *)
Definition one_sig (rest : bytes) : res (list sigpub * bytes) := need 102 rest (fun b rest => p <- decode_sigpub b ;; Ok ([p], rest)).
(** txStruct.go:105-226 DecodeRawTransaction. With one signature the count byte is not skipped. The decoded Version is left 0. *)
Definition decode_raw (txBytes : bytes) : res tx :=
  need1 txBytes (fun v r =>
  if negb (v =? 0) then Err else
  need1 r (fun ty r =>
  if negb (ty =? 0xD1) then Err else
  need 4 r (fun nonce r =>
  need 8 r (fun price r =>
  need 8 r (fun limit r =>
  need 20 r (fun payer r =>
  need1 r (fun n r =>
  if n =? 0 then Err else
  need n r (fun payload r =>
  need1 r (fun a r =>
  if negb (a =? 0) then Err else
  need1 r (fun c r' =>
  let t sigs := {| t_version := 0; t_type := ty; t_nonce := nonce; t_price := price; t_limit := limit; t_payer := payer; t_payload := payload; t_attr := 0; t_sigs := sigs |} in
  if c =? 0 then match r' with [] => Ok (t []) | _ => Err end
  else if c =? 1 then p <- decode_sigpub r ;; Ok (t [[p]])
  else '(sigs, r'') <- readn (Z.to_nat c) one_sig r' ;; match r'' with [] => Ok (t sigs) | _ => Err end)))))))))).

Section O.
Variable al : alphabet.
Variable H : bytes -> bytes. (* double SHA-256 *)
Variable K : bytes -> bytes. (* SHA-256 *)
(** txInvokeCode.go:68-74, 87-93, 134-140, 153-159: an account address. *)
Definition account (address : list Z) : res bytes :=
  '(p, h) <- decode_check1 al H address ;;
  if negb (p =? 0x17) then Err else if negb (zlen h =? 20) then Err else Ok h.
(** txInvokeCode.go:63-127 and 129-193 ToBytes: two copies of the same code but for the amount. *)
Definition invoke_bytes (v2 : bool) (x : state) : res bytes :=
  f <- account (x_from x) ;;
  t <- account (x_to x) ;;
  let withdraw := x_asset x =? 2 in
  let m := method_of v2 (x_asset x) in
  Ok ([0; 0xC6; 0x6B; 0x6A] ++ 0x14 :: f ++ [0xC8; 0x6A] ++
      (if withdraw then 0x14 :: ont_contract ++ [0xC8; 0x6A] else []) ++
      0x14 :: t ++ [0xC8; 0x6A] ++
      (if v2 then bigint_emit (x_amount x) else uint64_emit (x_amount x)) ++ [0xC8; 0x6C] ++
      (if withdraw then [] else uint64_emit 1 ++ [0xC1]) ++
      u8 (zlen m) :: m ++ u8 (zlen (contract_of (x_asset x))) :: contract_of (x_asset x) ++ [0] ++ 0x68 :: u8 (zlen (str "Ontology.Native.Invoke")) :: str "Ontology.Native.Invoke").
(** txStruct.go:20-29 NewEmptyTransaction: an error in the payer address is dropped, its bytes are then nil. *)
Definition empty_tx (nonce gasPrice gasLimit : Z) (payer : list Z) (payload : bytes) : res tx :=
  b <- (match decode_check1 al H payer with Ok (_, h) => Ok h | Err => Ok [] | Panic => Panic end) ;;
  Ok {| t_version := 0; t_type := 0xD1; t_nonce := le_bytes 4 nonce; t_price := le_bytes 8 gasPrice; t_limit := le_bytes 8 gasLimit; t_payer := b; t_payload := payload; t_attr := 0; t_sigs := [] |}.
(** transaction.go:44, 70, 99: the hash to sign. *)
Definition sig_hash (txBytes : bytes) : res bytes := b <- slice txBytes 0 (zlen txBytes - 1) ;; Ok (K (H b)).
(** transaction.go:28-52 CreateRawTransactionAndHash and 54-78 CreateRawTransactionAndHashV2; [nonce] is the random number. *)
Definition create (v2 : bool) (nonce gasPrice gasLimit : Z) (x : state) : res (list Z * list Z * list (list Z)) :=
  let payer := match x_payer x with [] => x_from x | p => p end in
  payload <- invoke_bytes v2 x ;;
  t <- empty_tx nonce gasPrice gasLimit payer payload ;;
  b <- tx_bytes t ;;
  h <- sig_hash b ;;
  Ok (hex_encode b, hex_encode h, payer :: (if beq payer (x_from x) then [] else [x_from x])).
(** transaction.go:100-107, the loop. *)
Fixpoint check_all (decompress : bytes -> bytes) (verify : bytes -> bytes -> bytes -> bool) (hash : bytes) (sigpubs : list sigpub) : res unit :=
  match sigpubs with
  | [] => Ok tt
  | p :: r => k <- slice_from (decompress (p_key p)) 1 ;; if verify k hash (p_signature p) then check_all decompress verify hash r else Err
  end.
(** transaction.go:88-112 VerifyAndCombineRawTransaction; [Err] is (false, "", error). An error of the last ToBytes is ignored, its bytes are nil. *)
Definition verify_and_combine (decompress : bytes -> bytes) (verify : bytes -> bytes -> bytes -> bool) (emptyTrans : list Z) (sigpubs : list sigpub) : res (list Z) :=
  txBytes <- hex_decode emptyTrans ;;
  t <- decode_raw txBytes ;;
  hash <- sig_hash txBytes ;;
  _ <- check_all decompress verify hash sigpubs ;;
  let t := {| t_version := t_version t; t_type := t_type t; t_nonce := t_nonce t; t_price := t_price t; t_limit := t_limit t; t_payer := t_payer t; t_payload := t_payload t; t_attr := t_attr t; t_sigs := t_sigs t ++ [sigpubs] |} in
  match tx_bytes t with Ok b => Ok (hex_encode b) | Err => Ok [] | Panic => Panic end.
End O.
