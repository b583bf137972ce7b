(** Model of rippleTransaction: payments, their signing hash and the signed transaction. *)
From Coq Require Import ZArith List Bool.
From Verif Require Import Go Base58Model Base58CheckModel SigModel.
Import ListNotations.
Open Scope Z_scope.

(** txEnc.go:7-18 getEncBytes. *)
Definition enc_bytes (typ field : Z) : bytes :=
  if (typ <? 16) && (field <? 16) then [Z.lor (u8 (Z.shiftl typ 4)) field]
  else if typ <? 16 then [u8 (Z.shiftl typ 4); field]
  else if field <? 16 then [field; typ]
  else [0; typ; field].
(** txProfile.go:10-45: the type codes and the field table, in the order of the map literal. *)
Definition st_uint16 := 1. Definition st_uint32 := 2. Definition st_amount := 6. Definition st_vl := 7. Definition st_account := 8. Definition st_object := 14. Definition st_array := 15.
Definition f_transaction_type := enc_bytes st_uint16 2.
Definition f_flags := enc_bytes st_uint32 2.
Definition f_sequence := enc_bytes st_uint32 4.
Definition f_destination_tag := enc_bytes st_uint32 14.
Definition f_last_ledger := enc_bytes st_uint32 27.
Definition f_amount := enc_bytes st_amount 1.
Definition f_fee := enc_bytes st_amount 8.
Definition f_signing_pub_key := enc_bytes st_vl 3.
Definition f_txn_signature := enc_bytes st_vl 4.
Definition f_account := enc_bytes st_account 1.
Definition f_destination := enc_bytes st_account 3.
Definition f_memos := enc_bytes st_array 9.
Definition f_memo := enc_bytes st_object 10.
Definition f_memo_type := enc_bytes st_vl 12.
Definition f_memo_data := enc_bytes st_vl 13.
Definition f_memo_format := enc_bytes st_vl 14.
Definition f_end_of_object := enc_bytes st_object 1.
Definition f_end_of_array := enc_bytes st_array 1.

(** txUtils.go:28-49 Value.Bytes with native = true and negative = false (newValue is called with these only). *)
Definition value_bytes (num : Z) : bytes := be_bytes 8 (Z.lor (Z.shiftl 1 62) (Z.land num (Z.shiftl 1 62 - 1))).
(** txUtils.go:86-92 getPublicKeyBytes, getHashBytes and 116-118 memoToBytes: one length byte. *)
Definition counted (b : bytes) : bytes := u8 (zlen b) :: b.
(** txUtils.go:51-84 getSignatureBytes. *)
Definition signature_bytes (sp : bytes) : res bytes :=
  r <- slice sp 0 32 ;;
  s <- slice_from sp 32 ;;
  r <- der_trim r ;;
  s <- der_trim s ;;
  let r := 2 :: u8 (zlen r) :: r in
  let s := 2 :: u8 (zlen s) :: s in
  let rs := r ++ s in
  let rs := u8 (zlen rs) :: rs in
  let rs := 48 :: rs in
  Ok (u8 (zlen rs) :: rs).
(** txStruct.go:27-38 getTransactionTypeBytes(PAYMENT), getFlagsBytes(TxCanonicalSignature); 40-45; 57-62. *)
Definition type_bytes : bytes := f_transaction_type ++ be_bytes 2 0.
Definition flags_bytes : bytes := f_flags ++ be_bytes 4 0x80000000.
Definition sequence_bytes (v : Z) : bytes := f_sequence ++ be_bytes 4 v.
(** txStruct.go:47-55 getDestinationTagBytes: int64 argument, uint32(tag). *)
Definition tag_bytes (tag : Z) : bytes := if tag <? 0 then [] else f_destination_tag ++ be_bytes 4 (u32 tag).
Definition last_ledger_bytes (v : Z) : bytes := f_last_ledger ++ be_bytes 4 v.
(** txStruct.go:64-80. *)
Definition amount_bytes (v : Z) : res bytes := if v =? 0 then Err else Ok (f_amount ++ value_bytes v).
Definition fee_bytes (v : Z) : res bytes := if v =? 0 then Err else Ok (f_fee ++ value_bytes v).
(** txStruct.go:82-89. *)
Definition pubkey_bytes (pubkey : list Z) : res bytes :=
  p <- hex_decode pubkey ;;
  if negb (zlen p =? 33) then Err else
  p0 <- idx p 0 ;;
  if negb (p0 =? 2) && negb (p0 =? 3) then Err else
  Ok (f_signing_pub_key ++ counted p).
(** txStruct.go:91-98. *)
Definition txn_signature_bytes (signature : list Z) : res bytes :=
  s <- hex_decode signature ;;
  if negb (zlen s =? 64) then Err else
  b <- signature_bytes s ;; Ok (f_txn_signature ++ b).
(** txStruct.go:100-111, with base58.go:152-173 GetProgramHashFromAddress; [H] is double SHA-256. *)
Definition account_bytes (al : alphabet) (H : bytes -> bytes) (field : bytes) (address : list Z) : res bytes :=
  h <- program_hash al H [0] 1 address ;; Ok (field ++ counted h).
(** txStruct.go:113-137. *)
Definition memos_bytes (memoType memoData memoFormat : list Z) : bytes :=
  match memoData with
  | [] => []
  | _ =>
      f_memos ++ f_memo ++
      (match memoType with [] => [] | _ => f_memo_type ++ counted memoType end) ++
      f_memo_data ++ counted memoData ++
      (match memoFormat with [] => [] | _ => f_memo_format ++ counted memoFormat end) ++
      f_end_of_object ++ f_end_of_array
  end.

(** The arguments of CreateEmptyRawTransactionAndHash. *)
Record payment := { p_from : list Z; p_pub : list Z; p_tag : Z; p_seq : Z; p_to : list Z; p_amount : Z; p_fee : Z; p_last : Z; p_mtype : list Z; p_mdata : list Z; p_mformat : list Z }.
(** txStruct.go:12-25 TxStruct. *)
Record tx := { TransactionType : bytes; Flags : bytes; Sequence : bytes; LastLedgerSequence : bytes; Amount : bytes; Fee : bytes; SigningPubKey : bytes; TxnSignature : bytes; Account : bytes; Destination : bytes; DestinationTag : bytes; Memos : bytes }.
(** txStruct.go:139-182 NewTxStruct with an empty signature. *)
Definition new_tx (al : alphabet) (H : bytes -> bytes) (p : payment) : res tx :=
  a <- amount_bytes (p_amount p) ;;
  f <- fee_bytes (p_fee p) ;;
  k <- pubkey_bytes (p_pub p) ;;
  acc <- account_bytes al H f_account (p_from p) ;;
  dst <- account_bytes al H f_destination (p_to p) ;;
  Ok {| TransactionType := type_bytes; Flags := flags_bytes; Sequence := sequence_bytes (p_seq p); LastLedgerSequence := last_ledger_bytes (p_last p);
        Amount := a; Fee := f; SigningPubKey := k; TxnSignature := []; Account := acc; Destination := dst;
        DestinationTag := tag_bytes (p_tag p); Memos := memos_bytes (p_mtype p) (p_mdata p) (p_mformat p) |}.
(** txStruct.go:184-201 ToEmptyRawWiths. *)
Definition to_empty_raw (t : tx) : list Z :=
  hex_encode (TransactionType t ++ Flags t ++ Sequence t ++ DestinationTag t ++ LastLedgerSequence t ++ Amount t ++ Fee t ++ SigningPubKey t) ++
  115 :: hex_encode (Account t ++ Destination t ++ Memos t).
(** txStruct.go:203-218 ToBytes. *)
Definition to_bytes (t : tx) : bytes :=
  TransactionType t ++ Flags t ++ Sequence t ++ DestinationTag t ++ LastLedgerSequence t ++ Amount t ++ Fee t ++ SigningPubKey t ++ TxnSignature t ++ Account t ++ Destination t ++ Memos t.
(** txProfile.go:6 HP_TRANSACTION_SIGN. *)
Definition sign_prefix : bytes := be_bytes 4 0x53545800.
(** txStruct.go:220-225 GetHash; [H512] is SHA-512. *)
Definition get_hash (H512 : bytes -> bytes) (t : tx) : res bytes :=
  let t := {| TransactionType := TransactionType t; Flags := Flags t; Sequence := Sequence t; LastLedgerSequence := LastLedgerSequence t; Amount := Amount t; Fee := Fee t;
              SigningPubKey := SigningPubKey t; TxnSignature := []; Account := Account t; Destination := Destination t; DestinationTag := DestinationTag t; Memos := Memos t |} in
  slice (H512 (sign_prefix ++ to_bytes t)) 0 32.
(** strings.Replace(text, "s", by, -1). *)
Definition replace_s (by_ text : list Z) : list Z := flat_map (fun c => if c =? 115 then by_ else [c]) text.
(** txStruct.go:227-237 getHashFromEmptyRawHex. *)
Definition hash_from_empty (H512 : bytes -> bytes) (emptyTrans : list Z) : res bytes :=
  b <- hex_decode (replace_s [] emptyTrans) ;;
  slice (H512 (sign_prefix ++ b)) 0 32.
(** transaction.go:11-17 CreateEmptyRawTransactionAndHash. *)
Definition create (al : alphabet) (H H512 : bytes -> bytes) (p : payment) : res (list Z * list Z) :=
  t <- new_tx al H p ;; h <- get_hash H512 t ;; Ok (to_empty_raw t, hex_encode h).
(** transaction.go:31-50 VerifyAndCombinRawTransaction. [decompress] is owcrypt.PointDecompress, [verify] whether
    owcrypt.Verify succeeds for point, hash and signature. The error of getTxnSignatureBytes is ignored. *)
Definition verify_and_combine (H512 : bytes -> bytes) (decompress : bytes -> bytes) (verify : bytes -> bytes -> bytes -> bool)
  (emptyTrans signature publicKey : list Z) : res (bool * list Z) :=
  match hash_from_empty H512 emptyTrans with
  | Panic => Panic
  | Err => Ok (false, [])
  | Ok hash =>
      match hex_decode publicKey with
      | Ok pub =>
          match hex_decode signature with
          | Ok sig =>
              point <- slice_from (decompress pub) 1 ;;
              if negb (verify point hash sig) then Ok (false, []) else
              match txn_signature_bytes signature with
              | Panic => Panic
              | Err => Ok (true, replace_s [] emptyTrans)
              | Ok s => Ok (true, replace_s (hex_encode s) emptyTrans)
              end
          | _ => Ok (false, [])
          end
      | _ => Ok (false, [])
      end
  end.
