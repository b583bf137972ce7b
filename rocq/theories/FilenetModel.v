(** Model of filenetTransaction. *)
From Coq Require Import ZArith List Bool.
From Verif Require Import Go Rd Base58Model.
Import ListNotations.
Open Scope Z_scope.

(** transaction.go:14-17 Vout. *)
Record vout := { o_address : list Z; o_amount : Z }.
(** String comparison a < b of Go. *)
Fixpoint text_ltb (a b : list Z) : bool :=
  match a, b with
  | _, [] => false
  | [], _ :: _ => true
  | x :: a', y :: b' => (x <? y) || ((x =? y) && text_ltb a' b')
  end.
(** txTo.go:11-13 Less. *)
Definition less (a b : vout) : bool := text_ltb (o_address a) (o_address b).
(** txStruct.go:94-102 Transfer and 106-109 TransferDetail; its JSON text is in FilenetJsonModel.v. *)
Record transfer := { t_txid : list Z; t_from : list Z; t_count : Z; t_value : Z; t_timestamp : Z; t_details : list (list Z * Z); t_sign : list Z }.

Section F.
Variable al : alphabet.
Variable H : bytes -> bytes. (* SHA-256 *)
(** sort.Sort, given the comparison; it is not stable. *)
Variable sort : (vout -> vout -> bool) -> list vout -> list vout.
(** The largest length for which make([]*TransferDetail, n) does not panic. *)
Variable max_len : Z.

(** address.go:8-25 decodeAddress. *)
Definition decode_address (address : list Z) : res bytes :=
  h <- base58_decode al address ;;
  a <- hex_decode h ;;
  if negb (zlen a =? 20) then Err else Ok a.
(** address.go:27-34 encodeAddress. *)
Definition encode_address (hash : bytes) : res (list Z) :=
  if negb (zlen hash =? 20) then Err else base58_encode al (hex_encode hash).
(** txStruct.go:51-71, the loop of NewTxStruct: the total and the outputs. *)
Fixpoint new_outs (outs : list vout) (total : Z) : res (Z * list (bytes * bytes)) :=
  match outs with
  | [] => Ok (total, [])
  | o :: r =>
      match o_address o with
      | [] => Err
      | _ =>
          if o_amount o =? 0 then Err else
          a <- decode_address (o_address o) ;;
          '(total, t) <- new_outs r (u64 (total + o_amount o)) ;;
          Ok (total, (a, le_bytes 8 (o_amount o)) :: t)
      end
  end.
(** txStruct.go:24-76 NewTxStruct followed by 78-92 ToBytes; [now] is time.Now().Unix(). The caller's slice is sorted in place. *)
Definition new_tx (now : Z) (from : list Z) (outs : list vout) : res bytes :=
  match from with
  | [] => Err
  | _ =>
      f <- decode_address from ;;
      match outs with
      | [] => Err
      | _ =>
          '(total, t) <- new_outs (sort less outs) 0 ;;
          Ok (f ++ le_bytes 8 (zlen outs) ++ le_bytes 8 total ++ le_bytes 8 (u64 now) ++ flat_map (fun p => fst p ++ snd p) t)
      end
  end.
(** transaction.go:21-34 CreateEmptyTransactionAndHash. *)
Definition create (now : Z) (from : list Z) (outs : list vout) : res (list Z * list Z) :=
  b <- new_tx now from outs ;;
  Ok (hex_encode b, hex_encode (H b)).
(** txStruct.go:162-179, one turn of the loop of decodeRawTransaction. *)
Definition detail (rest : bytes) : res (list Z * Z * bytes) :=
  need 28 rest (fun d rest =>
  a <- slice d 0 20 ;;
  to <- encode_address a ;;
  v <- slice d 20 28 ;;
  Ok (to, le_num v, rest)).
(** txStruct.go:114-199 decodeRawTransaction. *)
Definition decode_raw (emptyTrans signature : list Z) : res transfer :=
  txBytes <- hex_decode emptyTrans ;;
  if zlen txBytes =? 0 then Err else
  need 20 txBytes (fun f rest =>
  from <- encode_address f ;;
  need 8 rest (fun c rest =>
  need 8 rest (fun v rest =>
  need 8 rest (fun ts rest =>
  if max_len <? le_num c then Panic else
  '(ds, rest) <- readn (Z.to_nat (le_num c)) detail rest ;;
  if negb (zlen rest =? 0) then Err else
  if negb (zlen signature =? 128) then Err else
  _ <- hex_decode signature ;;
  Ok {| t_txid := hex_encode (H txBytes); t_from := from; t_count := le_num c; t_value := le_num v; t_timestamp := s64 (le_num ts); t_details := ds; t_sign := signature |})))).
(** transaction.go:54-83 VerifyAndCombineTransaction; [None] is the result ("", false). *)
Definition verify_and_combine (decompress : bytes -> bytes) (verify : bytes -> bytes -> bytes -> bool) (emptyTrans signature pubkey : list Z) : res (option transfer) :=
  match decode_raw emptyTrans signature with
  | Panic => Panic
  | Err => Ok None
  | Ok tx =>
      let hash := match hex_decode (t_txid tx) with Ok h => h | _ => [] end in
      let sig := match hex_decode signature with Ok s => s | _ => [] end in
      match hex_decode pubkey with
      | Ok p => k <- slice_from (decompress p) 1 ;; if verify k hash sig then Ok (Some tx) else Ok None
      | _ => Ok None
      end
  end.
End F.
