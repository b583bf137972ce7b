(** Model of hypercashTransaction. [B] is owcrypt's BLAKE-256, [H] the double BLAKE-256 of the addresses, [al] the
    base58 alphabet; [decompress] and [verify] are owcrypt's PointDecompress and Verify on secp256k1. *)
From Coq Require Import ZArith List Bool.
From Verif Require Import Go Rd Base58Model Base58CheckModel CodecModel SigModel BtcModel OmniModel.
Import ListNotations.
Open Scope Z_scope.

(** transaction.go:10-24 Vin, Vout. *)
Record hvin := { i_txid : list Z; i_vout : Z; i_tree : Z; i_amount : Z; i_lock : list Z; i_height : Z; i_index : Z }.
Record hvout := { v_amount : Z; v_version : Z; v_address : list Z }.
(** txIn.go:8-15 TxIn, txOut.go:5-9 TxOut, TxStruct.go:10-17 TxStruct (SerType is an argument of ToBytes). *)
Record htxin := { t_txid : bytes; t_vout : bytes; t_tree : Z; t_sequence : bytes; t_sigscript : bytes; t_lock : bytes }.
Record htxout := { u_amount : bytes; u_version : bytes; u_script : bytes }.
Record htx := { h_version : bytes; h_ins : list htxin; h_outs : list htxout; h_locktime : bytes; h_expiry : bytes }.

(** strings.Split(s, sep) for a separator of one character. *)
Fixpoint split_on (c : Z) (s : list Z) : list (list Z) :=
  match s with
  | [] => [[]]
  | x :: r => if x =? c then [] :: split_on c r else match split_on c r with h :: t => (x :: h) :: t | [] => [[x]] end
  end.

(** txIn.go:17-44 NewTxIn: the tree of the argument is not used. *)
Definition new_txin (i : hvin) : res htxin :=
  match reverse_hex (i_txid i) with
  | Ok txid =>
      if negb (zlen txid =? 32) then Err else
      match hex_decode (i_lock i) with
      | Ok lock => Ok {| t_txid := txid; t_vout := put_le 4 (i_vout i); t_tree := 0; t_sequence := [0xff; 0xff; 0xff; 0xff];
                         t_sigscript := put_le 8 (i_amount i) ++ put_le 4 (i_height i) ++ put_le 4 (i_index i); t_lock := u8 (zlen lock) :: lock |}
      | _ => Err
      end
  | _ => Err
  end.
(** txIn.go:46-55 ToBytes. *)
Definition txin_bytes (i : htxin) : bytes := t_txid i ++ t_vout i ++ [t_tree i] ++ t_sequence i.
(** txOut.go:11-36 NewTxOut: the script version of the argument is not used; txProfile.go:37 PKHAddressPrefix = 09 7f. *)
Definition new_txout (al : alphabet) (H : bytes -> bytes) (o : hvout) : res htxout :=
  '(pre, h) <- decode_check al H (v_address o) ;;
  if negb (zlen pre =? 2) || negb (zlen h =? 20) then Err else
  if negb (beq pre [0x09; 0x7f]) then Err else
  Ok {| u_amount := put_le 8 (v_amount o); u_version := put_le 2 0; u_script := [0x19; 0x76; 0xa9; 0x14] ++ h ++ [0x88; 0xac] |}.
(** txOut.go:38-46 ToBytes. *)
Definition txout_bytes (o : htxout) : bytes := u_amount o ++ u_version o ++ u_script o.
(** TxStruct.go:19-54 NewTxStruct. *)
Definition new_tx (al : alphabet) (H : bytes -> bytes) (ins : list hvin) (outs : list hvout) (lt ex : Z) : res htx :=
  match ins, outs with
  | [], _ => Err
  | _, [] => Err
  | _, _ =>
      i <- mapr new_txin ins ;; o <- mapr (new_txout al H) outs ;;
      Ok {| h_version := put_le 2 1; h_ins := i; h_outs := o; h_locktime := put_le 4 lt; h_expiry := put_le 4 ex |}
  end.
(** TxStruct.go:80-86: the lock script of input [index] and one zero byte for every other input. *)
Definition witness_slots (n : nat) (index : nat) (lock : bytes) : bytes := flat_map (fun j => if Nat.eqb j index then lock else [0]) (seq 0 n).
(** TxStruct.go:56-93 ToBytes. *)
Definition tx_bytes (t : htx) (index : nat) (serType : Z) : res bytes :=
  if (serType =? 1) || (serType =? 0) then
    Ok (h_version t ++ put_le 2 serType ++ var_int (zlen (h_ins t)) ++ flat_map txin_bytes (h_ins t) ++ var_int (zlen (h_outs t)) ++ flat_map txout_bytes (h_outs t) ++ h_locktime t ++ h_expiry t)
  else if serType =? 3 then
    match nth_error (h_ins t) index with
    | Some i => Ok (h_version t ++ put_le 2 serType ++ var_int (zlen (h_ins t)) ++ witness_slots (length (h_ins t)) index (t_lock i))
    | None => Err
    end
  else Err.
(** TxStruct.go:95-112 GetHash. *)
Definition get_hash (B : bytes -> bytes) (t : htx) (index : nat) : res bytes :=
  p <- tx_bytes t 0 1 ;; w <- tx_bytes t index 3 ;; Ok (B (put_le 4 1 ++ B p ++ B w)).
(** transaction.go:36-58 and 86-107: the text and the hashes of a transaction. *)
Definition input_text (i : htxin) : list Z := [58] ++ hex_encode (t_lock i) ++ [47] ++ hex_encode (t_sigscript i).
Definition text_and_hashes (B : bytes -> bytes) (t : htx) : res (list Z * list (list Z)) :=
  b <- tx_bytes t 0 0 ;; hs <- mapr (fun k => h <- get_hash B t k ;; Ok (hex_encode h)) (seq 0 (length (h_ins t))) ;;
  Ok (hex_encode b ++ flat_map input_text (h_ins t), hs).
(** transaction.go:26-59 CreateEmptyTransactionAndHash. *)
Definition create_empty (B : bytes -> bytes) (al : alphabet) (H : bytes -> bytes) (ins : list hvin) (outs : list hvout) (lt ex : Z) :=
  t <- new_tx al H ins outs lt ex ;; text_and_hashes B t.
(** transaction.go:61-108 CreateOmniEmptyTransactionAndHash; [to] is not nil, [change] may be. *)
Definition create_omni (B : bytes -> bytes) (al : alphabet) (H : bytes -> bytes) (ins : list hvin) (to : hvout) (change : option hvout) (amount property lt ex : Z) :=
  t <- new_tx al H ins ([to; to] ++ match change with Some c => [c] | None => [] end) lt ex ;;
  match h_outs t with
  | a :: b :: r => text_and_hashes B {| h_version := h_version t; h_ins := h_ins t;
                     h_outs := a :: {| u_amount := put_le 8 0; u_version := u_version b; u_script := hc_simple_send property amount |} :: r;
                     h_locktime := h_locktime t; h_expiry := h_expiry t |}
  | _ => Panic
  end.
(** txSignature.go:6-10 SigPub. *)
Record hsig := { s_signature : bytes; s_pubkey : bytes }.
(** transaction.go:159-201, one round of the loop: the bytes added to the result, or nothing if the round fails. The
    lock script is decoded before the inner loop (line 170 decodes it in round j = i, which always happens). *)
Definition verify_round (B decompress : bytes -> bytes) (verify : bytes -> bytes -> bytes -> bool) (prefix : bytes) (n i : nat) (data : list Z) (s : hsig) : res (option bytes) :=
  match split_on 47 data with
  | [lockText; sigText] =>
      match hex_decode lockText with
      | Ok lock =>
          let w := put_le 2 1 ++ put_le 2 3 ++ var_int (Z.of_nat n) ++ witness_slots n i lock in
          let hash := B (put_le 4 1 ++ B prefix ++ B w) in
          pub <- slice_from (decompress (s_pubkey s)) 1 ;;
          if negb (verify pub hash (s_signature s)) then Ok None else
          match hex_decode sigText with
          | Ok ss => e <- hypercash_sigpub (s_signature s) (s_pubkey s) 1 ;; Ok (Some (ss ++ e))
          | Err => Ok None
          | Panic => Panic
          end
      | Err => Ok None
      | Panic => Panic
      end
  | _ => Ok None
  end.
(** The loop of transaction.go:159-201 over the texts of the inputs. *)
Fixpoint verify_loop (B decompress : bytes -> bytes) (verify : bytes -> bytes -> bytes -> bool) (prefix : bytes) (n i : nat) (datas : list (list Z)) (sigs : list hsig) : res (option bytes) :=
  match datas, sigs with
  | [], _ => Ok (Some [])
  | d :: ds, s :: ss =>
      r <- verify_round B decompress verify prefix n i d s ;;
      match r with
      | None => Ok None
      | Some x => r' <- verify_loop B decompress verify prefix n (S i) ds ss ;; match r' with Some y => Ok (Some (x ++ y)) | None => Ok None end
      end
  | _ :: _, [] => Panic
  end.
(** transaction.go:128-204 VerifyAndCombineTransaction; None is (false, ""). *)
Definition verify_combine (B decompress : bytes -> bytes) (verify : bytes -> bytes -> bytes -> bool) (text : list Z) (sigs : list hsig) : res (option (list Z)) :=
  match split_on 58 text with
  | t0 :: datas =>
      if zlen (t0 :: datas) <=? 1 then Ok None else
      if negb (Nat.eqb (length datas) (length sigs)) then Ok None else
      match hex_decode t0 with
      | Ok tx =>
          b2 <- idx tx 2 ;; if negb (0 =? b2) then Ok None else
          b3 <- idx tx 3 ;; if negb (0 =? b3) then Ok None else
          let ret := tx ++ var_int (zlen sigs) in
          let prefix := firstn 2 tx ++ put_le 2 1 ++ skipn 4 tx in
          r <- verify_loop B decompress verify prefix (length sigs) 0 datas sigs ;;
          match r with Some x => Ok (Some (hex_encode (ret ++ x))) | None => Ok None end
      | Err => Ok None
      | Panic => Panic
      end
  | [] => Ok None
  end.
(** TxStruct.go:114-164 GetVinList: pairs of transaction id and output index. *)
Fixpoint vin_loop (tx : bytes) (count : nat) (index : Z) : res (list (list Z * Z)) :=
  match count with
  | O => Ok []
  | S c =>
      if index + 32 >? zlen tx then Err else
      id <- slice tx index (index + 32) ;;
      if index + 32 + 9 >? zlen tx then Err else
      v <- slice tx (index + 32) (index + 36) ;; n <- get_le 4 v ;;
      r <- vin_loop tx c (index + 41) ;; Ok ((reverse_to_hex id, n) :: r)
  end.
Definition vin_list (text : list Z) : res (list (list Z * Z)) :=
  match split_on 58 text with
  | t0 :: datas =>
      if zlen (t0 :: datas) <=? 1 then Err else
      match hex_decode t0 with
      | Ok tx =>
          if 4 >? zlen tx then Err else
          if 5 >? zlen tx then Err else
          c <- idx tx 4 ;;
          if (c <=? 0) || negb (c =? zlen datas) then Err else vin_loop tx (Z.to_nat c) 5
      | _ => Err
      end
  | [] => Err
  end.
