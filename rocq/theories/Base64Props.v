(** Model of part of /repo/addressEncoder/base64.go, and theorems (C19). *)
From Coq Require Import String ZArith List Bool Lia ZifyBool ZifyNat.
From Verif Require Import Go GoFacts.
Import ListNotations.
Open Scope Z_scope.

(** base64.go:10-15 Encoding. The decode map is kept as the list of its 257 entries. *)
Record encoding := mkEnc { enc_encode : list Z; enc_map : list Z; enc_pad : Z; enc_strict : bool }.
(** copy(dst, src): overwrites the first min(len(dst), len(src)) elements of dst. *)
Definition go_copy (dst src : list Z) : list Z :=
  firstn (length dst) src ++ skipn (length src) dst.
Fixpoint set_nth (l : list Z) (i : nat) (v : Z) : list Z :=
  match l, i with
  | [], _ => []
  | _ :: r, O => v :: r
  | x :: r, S i' => x :: set_nth r i' v
  end.
(** base64.go:37-39. *)
Fixpoint fill_map (s : list Z) (i : Z) (m : list Z) : list Z :=
  match s with
  | [] => m
  | c :: r => fill_map r (i + 1) (set_nth m (Z.to_nat c) i)
  end.
(** base64.go:22-41 NewEncoding. The field encode of the new value is a nil slice, so the copy of
    line 34 copies nothing. *)
Definition new_encoding (encoder : list Z) : res encoding :=
  if negb (zlen encoder =? 64) then Panic else
  if existsb (fun c => (c =? 10) || (c =? 13)) encoder then Panic else
  Ok (mkEnc (go_copy [] encoder) (fill_map encoder 0 (repeat 255 257)) 61 false).
(** base64.go:43-48 EncodedLen for the padded encodings NewEncoding makes. *)
Definition encoded_len (n : Z) : Z := (n + 2) / 3 * 4.
(** base64.go:59-104 Encode. The destination is returned as the characters written; out-of-range writes
    cannot happen because Base64Encode sizes the destination. *)
Definition enc_char (e : encoding) (v k : Z) : res Z := idx (enc_encode e) (Z.land (Z.shiftr v k) 63).
Fixpoint encode_full (f : nat) (e : encoding) (src : list Z) : res (list Z) :=
  match f with
  | O => Ok []
  | S f' =>
    match src with
    | a :: b :: c :: r =>
        let v := Z.lor (Z.lor (Z.shiftl a 16) (Z.shiftl b 8)) c in
        c0 <- enc_char e v 18 ;; c1 <- enc_char e v 12 ;; c2 <- enc_char e v 6 ;; c3 <- enc_char e v 0 ;;
        t <- encode_full f' e r ;; Ok (c0 :: c1 :: c2 :: c3 :: t)
    | [a; b] =>
        let v := Z.lor (Z.shiftl a 16) (Z.shiftl b 8) in
        c0 <- enc_char e v 18 ;; c1 <- enc_char e v 12 ;; c2 <- enc_char e v 6 ;; Ok [c0; c1; c2; enc_pad e]
    | [a] =>
        let v := Z.shiftl a 16 in
        c0 <- enc_char e v 18 ;; c1 <- enc_char e v 12 ;; Ok [c0; c1; enc_pad e; enc_pad e]
    | [] => Ok []
    end
  end.
(** base64.go:315-319 Base64Encode. *)
Definition base64_encode (e : encoding) (src : list Z) : res (list Z) := encode_full (length src) e src.
(** base64.go:322-328 Base64Decode: the first thing it does is NewEncoding(string(enc.encode)); what follows
    is never reached for an Encoding made by NewEncoding and is left as a parameter. *)
Definition base64_decode (rest : encoding -> list Z -> res bytes) (e : encoding) (s : list Z) : res bytes :=
  e' <- new_encoding (enc_encode e) ;; rest e' s.

(** Every Encoding obtained from NewEncoding panics on encoding any non-empty input and on decoding any input. *)
Theorem base64_encode_panics : forall alphabet e src, new_encoding alphabet = Ok e -> src <> [] -> base64_encode e src = Panic.
Proof.
  intros alphabet e src E N. unfold new_encoding in E. destruct (negb _); [discriminate|]. destruct (existsb _ _); [discriminate|].
  injection E as <-. unfold base64_encode. 
  assert (G : forall v k m, enc_char (mkEnc (go_copy [] alphabet) m 61 false) v k = Panic).
  { intros v k m. unfold enc_char, idx, go_copy. cbn [enc_encode length firstn app]. rewrite skipn_nil. destruct (_ <? 0); [reflexivity|]. destruct (Z.to_nat _); reflexivity. }
  destruct src as [|a [|b [|c r]]]; [contradiction| | |]; cbn [length encode_full]; rewrite G; reflexivity.
Qed.
Theorem base64_encode_empty : forall alphabet e, new_encoding alphabet = Ok e -> base64_encode e [] = Ok [].
Proof. reflexivity. Qed.
Theorem base64_decode_panics : forall rest alphabet e s, new_encoding alphabet = Ok e -> base64_decode rest e s = Panic.
Proof.
  intros rest alphabet e s E. unfold new_encoding in E. destruct (negb _); [discriminate|]. destruct (existsb _ _); [discriminate|].
  injection E as <-. unfold base64_decode. cbn [enc_encode]. unfold go_copy. cbn [length firstn app]. rewrite skipn_nil. reflexivity.
Qed.
(** Encodings exist: NewEncoding accepts every 64-byte alphabet without line breaks, and panics otherwise. *)
Theorem new_encoding_accepts_iff : forall alphabet,
  (exists e, new_encoding alphabet = Ok e) <-> length alphabet = 64%nat /\ ~ In 10 alphabet /\ ~ In 13 alphabet.
Proof.
  intros s. unfold new_encoding. split.
  - intros (e & E). destruct (negb _) eqn:L; [discriminate|]. destruct (existsb _ _) eqn:X; [discriminate|].
    split; [unfold zlen in L; lia|]. rewrite <- not_true_iff_false, existsb_exists in X. split; intros K; apply X; eexists; split; try exact K; reflexivity.
  - intros (L & N & R). replace (negb _) with false by (unfold zlen; lia). destruct (existsb _ _) eqn:X; [|eauto].
    apply existsb_exists in X as (x & I & K). assert (x = 10 \/ x = 13) as [-> | ->] by lia; contradiction.
Qed.
Example std_alphabet_accepted :
  exists e, new_encoding (str "ABCDEFGHIJKLMNOPQRSTUVWXYZabcdefghijklmnopqrstuvwxyz0123456789+/") = Ok e /\ base64_encode e [77; 97; 110] = Panic.
Proof. eexists. split; vm_compute; reflexivity. Qed.

Print Assumptions base64_encode_panics.
Print Assumptions base64_decode_panics.
