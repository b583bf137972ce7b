(** Model of moacchainTransaction. *)
From Coq Require Import ZArith List Bool.
From Verif Require Import Go Rd Bech32mModel.
Import ListNotations.
Open Scope Z_scope.

(** txUtils.go:10-12 getLengthBytes. *)
Definition length_bytes (n : Z) : bytes := [u8 (n + 0x80)].
(** txUtils.go:14-34 getUint64Bytes. *)
Definition uint64_bytes (data : Z) : bytes :=
  if data =? 0 then [0x80] else if data <? 0x80 then [data] else
  let b := strip0 (be_bytes 8 data) in length_bytes (zlen b) ++ b.
(** txUtils.go:36-40 getBigIntBytes. *)
Definition bigint_bytes (data : Z) : bytes := let r := big_bytes data in length_bytes (zlen r) ++ r.
(** txUtils.go:52-111 putint: big-endian bytes, as many as the value needs, at least one. *)
Definition putint (i : Z) : bytes :=
  if i <? 2 ^ 8 then be_bytes 1 i else if i <? 2 ^ 16 then be_bytes 2 i else if i <? 2 ^ 24 then be_bytes 3 i else
  if i <? 2 ^ 32 then be_bytes 4 i else if i <? 2 ^ 40 then be_bytes 5 i else if i <? 2 ^ 48 then be_bytes 6 i else
  if i <? 2 ^ 56 then be_bytes 7 i else be_bytes 8 i.
(** txUtils.go:42-50 getHeadBytes with the tags of txProfile.go. *)
Definition head_bytes (size : Z) : bytes :=
  if size <? 56 then [u8 (0xC0 + u8 size)] else let s := putint size in u8 (0xF7 + zlen s) :: s.
(** txUtils.go:113-124 getAddressHashBytes. *)
Definition address_bytes (address : list Z) : res bytes :=
  p <- slice address 0 2 ;;
  if negb (beq p [48; 120]) then Err else
  r <- slice_from address 2 ;;
  h <- hex_decode r ;;
  if negb (zlen h =? 20) then Err else Ok (length_bytes 20 ++ h).

(** txStruct.go:8-22 TxStruct, without Head, which is never used. *)
Record tx := { m_nonce : bytes; m_system : bytes; m_price : bytes; m_limit : bytes; m_to : bytes; m_amount : bytes;
  m_payload : bytes; m_sharding : bytes; m_via : bytes; m_chain : bytes; m_r : bytes; m_s : bytes }.
Definition chain_id (testnet : bool) : Z := if testnet then 101 else 99.
(** txStruct.go:24-56 NewTxStruct with a nil signature. *)
Definition new_tx (to : list Z) (nonce amount gasLimit gasPrice : Z) (testnet : bool) : res tx :=
  h <- address_bytes to ;;
  Ok {| m_nonce := uint64_bytes nonce; m_system := uint64_bytes 0; m_price := bigint_bytes gasPrice; m_limit := bigint_bytes gasLimit;
        m_to := h; m_amount := bigint_bytes amount; m_payload := length_bytes 0; m_sharding := uint64_bytes 0; m_via := uint64_bytes 0;
        m_chain := [chain_id testnet]; m_r := length_bytes 0; m_s := length_bytes 0 |}.
(** txStruct.go:58-76 ToBytes. *)
Definition body_bytes (t : tx) : bytes :=
  m_nonce t ++ m_system t ++ m_price t ++ m_limit t ++ m_to t ++ m_amount t ++ m_payload t ++ m_sharding t ++ m_via t ++ m_chain t ++ m_r t ++ m_s t.
Definition tx_bytes (t : tx) : bytes := head_bytes (zlen (body_bytes t)) ++ body_bytes t.
(** txStruct.go:95-103 and the eight blocks like it in decodeEmpty: an item behind its length byte. *)
Definition item {A} (rest : bytes) (k : bytes -> bytes -> res A) : res A :=
  match rest with
  | [] => Err
  | b :: _ => if b <? 0x80 then Err else need (1 + b - 0x80) rest k
  end.
(** txStruct.go:78-186 decodeEmpty. *)
Definition decode_empty (txBytes : bytes) : res tx :=
  match txBytes with
  | [] => Err
  | b :: _ =>
      (if b <=? 0x80 then need 1 txBytes else need (1 + b - 0x80) txBytes) (fun nonce r =>
      item r (fun sys r => item r (fun price r => item r (fun limit r => item r (fun to r => item r (fun amount r =>
      item r (fun payload r => item r (fun sharding r => item r (fun via r =>
      need 1 r (fun chain r =>
      match r with
      | [x; y] => if (x =? 0x80) && (y =? 0x80) then
          Ok {| m_nonce := nonce; m_system := sys; m_price := price; m_limit := limit; m_to := to; m_amount := amount; m_payload := payload;
                m_sharding := sharding; m_via := via; m_chain := chain; m_r := []; m_s := [] |} else Err
      | _ => Err
      end))))))))))
  end.
(** txStruct.go:188-217 addSig. *)
Definition add_sig (t : tx) (sig : bytes) (testnet : bool) : res tx :=
  r <- slice sig 0 32 ;;
  s <- slice sig 32 64 ;;
  v <- idx sig 64 ;;
  let r := strip0 r in
  let s := strip0 s in
  Ok {| m_nonce := m_nonce t; m_system := m_system t; m_price := m_price t; m_limit := m_limit t; m_to := m_to t; m_amount := m_amount t;
        m_payload := m_payload t; m_sharding := m_sharding t; m_via := m_via t; m_chain := uint64_bytes (u8 (v + 35 + u8 (chain_id testnet * 2)));
        m_r := length_bytes (zlen r) ++ r; m_s := length_bytes (zlen s) ++ s |}.
(** transaction.go:12-21 CreateEmptyRawTransactionAndHash; [K] is Keccak-256. *)
Definition create (K : bytes -> bytes) (to : list Z) (nonce amount gasLimit gasPrice : Z) (testnet : bool) : res (list Z * list Z) :=
  t <- new_tx to nonce amount gasLimit gasPrice testnet ;;
  let b := tx_bytes t in
  Ok (hex_encode b, hex_encode (K b)).
(** transaction.go:35-67 VerifyAndCombineRawTransaction; strings.ToLower on ASCII, all that matters for hex text. *)
Definition verify_and_combine (K : bytes -> bytes) (recover : bytes -> bytes -> option bytes) (compress : bytes -> bytes)
  (verify : bytes -> bytes -> bytes -> bool) (emptyTrans signature publicKey : list Z) (testnet : bool) : res (bool * list Z) :=
  match hex_decode emptyTrans with
  | Ok txBytes =>
      match hex_decode signature with
      | Ok sig =>
          if negb (zlen sig =? 65) then Ok (false, []) else
          v <- idx sig 64 ;;
          if negb (v =? 1) && negb (v =? 0) then Ok (false, []) else
          match recover sig (K txBytes) with
          | None => Ok (false, [])
          | Some pub =>
              if negb (beq (to_lower (hex_encode (compress pub))) (to_lower publicKey)) then Ok (false, []) else
              s <- slice sig 0 64 ;;
              if negb (verify pub (K txBytes) s) then Ok (false, []) else
              ok <- (if zlen txBytes <? 57 then
                       h <- idx (head_bytes (u64 (zlen txBytes - 1))) 0 ;;
                       t <- idx txBytes 0 ;;
                       Ok (h =? t)
                     else Ok true) ;;
              if negb ok then Ok (false, []) else
              r <- slice_from txBytes 1 ;;
              match decode_empty r with
              | Panic => Panic
              | Err => Ok (false, [])
              | Ok t => t <- add_sig t sig testnet ;; Ok (true, 48 :: 120 :: hex_encode (tx_bytes t))
              end
          end
      | _ => Ok (false, [])
      end
  | _ => Ok (false, [])
  end.
