(** Model of bigbangTransaction. [H] is owcrypt.Hash with BLAKE2B and 32 bytes, [sign] and [verify] owcrypt's Ed25519
    Signature and Verify (None: an error code), [now] is time.Now().Unix(). crc24q is in CrcModel.v. *)
From Coq Require Import String ZArith List Bool.
From Verif Require Import Go CrcModel BtcModel Rd.
Import ListNotations.
Open Scope Z_scope.

(** txProfile.go:10 alphaBet. *)
Definition bb_alphabet : list Z := str "0123456789abcdefghjkmnpqrstvwxyz".
(** Go's encoding/base32 (not in /repo): NewEncoding's decodeMap, a position in the alphabet or nothing. *)
Fixpoint pos_from (alpha : list Z) (c : Z) (i : Z) : option Z :=
  match alpha with [] => None | a :: r => if a =? c then Some i else pos_from r c (i + 1) end.
Definition b32_pos (alpha : list Z) (c : Z) : option Z := pos_from alpha c 0.
(** encoding/base32: stripNewlines. *)
Definition b32_strip (s : list Z) : list Z := filter (fun c => negb ((c =? 13) || (c =? 10))) s.
(** encoding/base32: one round of the loop of decode: eight digits and the rest of the text, or the digits before
    the padding, or an error. [j] digits are in [acc]. *)
Inductive quantum := QFull (d : list Z) (rest : list Z) | QEnd (d : list Z) | QBad.
Fixpoint b32_quantum (alpha : list Z) (k : nat) (j : Z) (acc : list Z) (src : list Z) : quantum :=
  match k with
  | O => QFull acc src
  | S k' => match src with
    | [] => QBad
    | c :: r =>
        if (c =? 61) && (2 <=? j) && (zlen r <? 8) then
          if zlen r + j <? 7 then QBad
          else if negb (forallb (fun x => x =? 61) (firstn (Z.to_nat (7 - j)) r)) then QBad
          else if (j =? 1) || (j =? 3) || (j =? 6) then QBad
          else QEnd acc
        else match b32_pos alpha c with None => QBad | Some v => b32_quantum alpha k' (j + 1) (acc ++ [v]) r end
    end
  end.
(** encoding/base32: the bytes of a round: [dlen] digits give dlen*5/8 bytes. *)
Definition b32_bytes (d : list Z) : list Z :=
  let v i := nth i d 0 in
  let b := [Z.lor (u8 (Z.shiftl (v 0%nat) 3)) (Z.shiftr (v 1%nat) 2);
            Z.lor (Z.lor (u8 (Z.shiftl (v 1%nat) 6)) (u8 (Z.shiftl (v 2%nat) 1))) (Z.shiftr (v 3%nat) 4);
            Z.lor (u8 (Z.shiftl (v 3%nat) 4)) (Z.shiftr (v 4%nat) 1);
            Z.lor (Z.lor (u8 (Z.shiftl (v 4%nat) 7)) (u8 (Z.shiftl (v 5%nat) 2))) (Z.shiftr (v 6%nat) 3);
            Z.lor (u8 (Z.shiftl (v 6%nat) 5)) (v 7%nat)] in
  firstn (length d * 5 / 8) b.
(** encoding/base32: decode; the fuel is the length of the text, every round consumes some of it. *)
Fixpoint b32_loop (alpha : list Z) (fuel : nat) (src : list Z) : res bytes :=
  match src, fuel with
  | [], _ => Ok []
  | _, O => Err
  | _, S f => match b32_quantum alpha 8 0 [] src with
              | QBad => Err
              | QEnd d => Ok (b32_bytes d)
              | QFull d rest => t <- b32_loop alpha f rest ;; Ok (b32_bytes d ++ t)
              end
  end.
Definition b32_decode (alpha s : list Z) : res bytes := let s := b32_strip s in b32_loop alpha (length s) s.

(** address.go:20-24. *)
Fixpoint check3 (n : nat) (i : Z) (chk pubkey : bytes) : res unit :=
  match n with
  | O => Ok tt
  | S n' => a <- idx chk i ;; b <- idx pubkey (32 + i) ;; if negb (a =? b) then Err else check3 n' (i + 1) chk pubkey
  end.
(** address.go:8-27 addressDecode. *)
Definition bb_address (address : list Z) : res bytes :=
  p <- slice_to address 1 ;;
  if negb (beq p (str "1")) then Err else
  t <- slice_from address 1 ;;
  pubkey <- b32_decode bb_alphabet t ;;
  if negb (zlen pubkey =? 35) then Err else
  pk <- slice_to pubkey 32 ;;
  c <- crc24q pk ;;
  chk <- slice_from (be_bytes 4 c) 1 ;;
  _ <- check3 3 0 chk pubkey ;;
  Ok (u8 (49 - 48) :: pk).

(** txUtils.go:18-27 reverseHexToBytes. *)
Definition bb_rhex (h : list Z) : res bytes :=
  if zlen h mod 2 =? 1 then Err else b <- hex_decode h ;; Ok (rev b).
(** txIn.go:10-24 NewTxIn. *)
Definition bb_txin (i : list Z * Z) : res (bytes * Z) :=
  let '(txid, vout) := i in
  if (zlen txid =? 0) || negb (zlen txid =? 64) then Err else b <- bb_rhex txid ;; Ok (b, vout).
(** txStruct.go:8-19 TxStruct. *)
Record bbtx := { bb_version : bytes; bb_type : bytes; bb_time : bytes; bb_lock : bytes; bb_anchor : bytes;
  bb_vins : list (bytes * Z); bb_to : bytes; bb_amount : bytes; bb_fee : bytes; bb_data : bytes }.
(** txStruct.go:21-69 NewTxStruct. *)
Definition bb_new (version txtype timestamp lockUntil : Z) (anchor : list Z) (inputs : list (list Z * Z)) (to : list Z) (amount fee : Z) (data : list Z) : res bbtx :=
  anchorBytes <- bb_rhex anchor ;;
  if zlen inputs =? 0 then Err else
  vins <- mapr bb_txin inputs ;;
  toBytes <- bb_address to ;;
  if amount =? 0 then Err else
  if fee =? 0 then Err else
  Ok {| bb_version := le_bytes 2 version; bb_type := le_bytes 2 txtype; bb_time := le_bytes 4 timestamp; bb_lock := le_bytes 4 lockUntil;
        bb_anchor := anchorBytes; bb_vins := vins; bb_to := toBytes; bb_amount := le_bytes 8 amount; bb_fee := le_bytes 8 fee;
        bb_data := if zlen data =? 0 then [0] else u8 (zlen data) :: data |}.
(** txStruct.go:71-89 ToBytes, txIn.go:26-28. *)
Definition bb_bytes (tx : bbtx) : bytes :=
  bb_version tx ++ bb_type tx ++ bb_time tx ++ bb_lock tx ++ bb_anchor tx ++ [u8 (zlen (bb_vins tx))] ++
  flat_map (fun '(id, v) => id ++ [v]) (bb_vins tx) ++ bb_to tx ++ bb_amount tx ++ bb_fee tx ++ bb_data tx.
(** transaction.go:15-24 CreateEmptyTransactionAndHash; txProfile.go:4-5: version 1, type 0. *)
Definition bb_create (H : bytes -> bytes) (now lockUntil : Z) (anchor : list Z) (inputs : list (list Z * Z)) (to : list Z) (amount fee : Z) (data : list Z) : res (list Z * list Z) :=
  tx <- bb_new 1 0 (u32 now) lockUntil anchor inputs to amount fee data ;;
  Ok (hex_encode (bb_bytes tx), hex_encode (H (bb_bytes tx))).
(** transaction.go:26-43 SignTransactionHash. *)
Definition bb_sign (sign : bytes -> bytes -> option bytes) (hash : list Z) (prikey : bytes) : res (list Z) :=
  h <- hex_decode hash ;;
  if negb (zlen h =? 32) then Err else
  if negb (zlen prikey =? 32) then Err else
  match sign prikey h with None => Err | Some s => Ok (hex_encode s) end.
(** transaction.go:45-68 VerifyAndCombineTransaction; Err stands for (false, ""). *)
Definition bb_combine (H : bytes -> bytes) (verify : bytes -> bytes -> bytes -> bool) (emptyTrans signature : list Z) (pubkey : bytes) : res (list Z) :=
  trans <- hex_decode emptyTrans ;;
  if zlen trans =? 0 then Err else
  sig <- hex_decode signature ;;
  if negb (zlen sig =? 64) then Err else
  if negb (zlen pubkey =? 32) then Err else
  if negb (verify pubkey (H trans) sig) then Err else
  Ok (hex_encode (trans ++ [64] ++ sig)).
