(** btcLikeTxDriver: what DecodeRawTransaction leaves in the bytes the caller passed.
    The decoded transaction consists of sub-slices of those bytes, and decodeFromSegwitBytes appends to one of them. *)
From Coq Require Import ZArith List Bool Lia.
From Verif Require Import Go Rd SigModel LikeModel.
Import ListNotations.
Open Scope Z_scope.

(** btcLikeTxDriver/witness.go:63 and 84: ret.Signature is a slice of the caller's array that ends where the first integer
    ends, and its capacity reaches to the end of that array; append therefore writes the 32 bytes of the second integer
    behind the first one, over the tag, the length and the beginning of the second integer. *)
Definition segwit_left (script : bytes) : res bytes :=
  '(r, rLen, index) <- segwit_int script 3 ;;
  '(s, sLen, _) <- segwit_int script index ;;
  Ok (firstn (Z.to_nat index) script ++ s ++ skipn (Z.to_nat (index + 32)) script).
(** txStruct.go:251-277: the bytes of one witness as they are left, and the bytes that follow. *)
Definition like_left_wit (rest : bytes) : res (bytes * bytes) :=
  need1 rest (fun b r =>
  if b =? 0 then Ok ([b], r)
  else if b =? 2 then
    need1 r (fun n _ => need (n + 35) r (fun s r =>
    match decode_segwit 1 s with
    | Ok _ => l <- segwit_left s ;; Ok (b :: l, r)
    | _ => Panic
    end))
  else Ok ([], rest)).
Fixpoint like_left_wits (n : nat) (rest : bytes) : res (bytes * bytes) :=
  match n with
  | O => Ok ([], rest)
  | S n' => '(w, rest) <- like_left_wit rest ;; '(ws, rest) <- like_left_wits n' rest ;; Ok (w ++ ws, rest)
  end.
(** txStruct.go:149-290 DecodeRawTransaction: the transaction and the caller's bytes afterwards; nothing but the witnesses is
    written to. What is left after an error or a panic is not modelled. *)
Definition like_decode_left (txBytes : bytes) : res (ltx * bytes) :=
  need 4 txBytes (fun version rest =>
  if zlen rest <? 2 then Err else
  '(segwit, rest) <- match rest with
                     | a :: b :: r => if a =? 0 then (if negb (b =? 1) then Err else Ok (true, r)) else Ok (false, rest)
                     | _ => Ok (false, rest)
                     end ;;
  need1 rest (fun nin rest =>
  '(ins, rest) <- readn (Z.to_nat nin) like_decode_in rest ;;
  need1 rest (fun nout rest =>
  '(outs, rest) <- readn (Z.to_nat nout) like_decode_out rest ;;
  let before := firstn (length txBytes - length rest) txBytes in
  '(wits, _) <- (if segwit : bool then like_decode_wits (Z.to_nat nin) rest else Ok ([], rest)) ;;
  '(kept, rest) <- (if segwit : bool then like_left_wits (Z.to_nat nin) rest else Ok ([], rest)) ;;
  need 4 rest (fun locktime rest =>
  if negb (zlen rest =? 0) then Err else
  Ok ({| l_version := version; l_vins := ins; l_vouts := outs; l_wit := wits; l_locktime := locktime |}, before ++ kept ++ locktime))))).
