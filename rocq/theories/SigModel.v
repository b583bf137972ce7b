(** Signature normalisation and DER signature scripts.
    serilizeS is the same function in 18 packages (btcTransaction/SignaturePubkey.go:15-32, signatureSet/signature.go:82-100,
    aliencoinTransaction/txSigPub.go:20-37, ...). The DER functions are the same in btcTransaction, omniTransaction,
    bitcoincashTransaction, bitcoinsvTransaction, hcTransaction, zencashTransaction, cxcTransaction (SignaturePubkey.go),
    and differ from those of vergeTransaction, vollarTransaction (txSigPub.go), hypercashTransaction (txSignature.go),
    mateverseTransaction (txSigPub.go) and btcLikeTxDriver (signaturepubkey.go) only in the length bytes around them. *)
From Coq Require Import ZArith List Bool.
From Verif Require Import Go PadLoop.
Import ListNotations.
Open Scope Z_scope.

(** btcTransaction/txProfile.go:52-53 CurveOrder, HalfCurveOrder (secp256k1; the same bytes in all packages but one). *)
Definition secp_order : Z := 0xFFFFFFFFFFFFFFFFFFFFFFFFFFFFFFFEBAAEDCE6AF48A03BBFD25E8CD0364141.
Definition secp_half : Z := 0x7FFFFFFFFFFFFFFFFFFFFFFFFFFFFFFF5D576E7357A4501DDFE92F46681B20A0.
(** ontologyTransaction/txProfile.go:55-56 CurveOrder, HalfCurveOrder (P-256). *)
Definition p256_order : Z := 0xFFFFFFFF00000000FFFFFFFFFFFFFFFFBCE6FAADA7179E84F3B9CAC2FC632551.
Definition p256_half : Z := 0x7FFFFFFF800000007FFFFFFFFFFFFFFFDE737D56D38BCF4279DCE5617E3192A8.

(** btcTransaction/SignaturePubkey.go:15-32 serilizeS. [order]/[half] are the two constants of the package. *)
Definition serialize_s (order half : Z) (sig : bytes) : res bytes :=
  s <- slice_from sig 32 ;;
  if half <? be_num s then
    h <- slice sig 0 32 ;; Ok (h ++ pad32_buggy (big_bytes (order - be_num s)))
  else Ok sig.
(** The same call seen through the argument: append(sig[:32], s...) writes into the backing array of sig when it is
    long enough. For a sig of 64 bytes it always is. This is what remains in the caller's slice
    (mateverseTransaction/transaction.go:71 and hypercashTransaction/transaction.go:123 ignore the returned value). *)
Definition serialize_s_in_place (order half : Z) (sig : bytes) : res bytes :=
  out <- serialize_s order half sig ;; Ok (out ++ skipn (length out) sig).

(** SignaturePubkey.go:59-65, the loop that removes leading zero bytes; [f] is the 32 of the loop bound. *)
Fixpoint der_strip (f : nat) (r : bytes) : res bytes :=
  match f with
  | O => Ok r
  | S f' =>
      r0 <- idx r 0 ;;
      if r0 =? 0 then
        r1 <- idx r 1 ;;
        if negb (Z.land r1 128 =? 128) then r' <- slice_from r 1 ;; der_strip f' r' else Ok r
      else Ok r
  end.
(** SignaturePubkey.go:56-66. *)
Definition der_trim (r : bytes) : res bytes :=
  r0 <- idx r 0 ;; if Z.land r0 128 =? 128 then Ok (0 :: r) else der_strip 32 r.
(** SignaturePubkey.go:79-90, the length and type bytes around r and s. *)
Definition der_wrap (r s : bytes) (sigType : Z) : bytes :=
  let r := 2 :: u8 (zlen r) :: r in
  let s := 2 :: u8 (zlen s) :: s in
  let rs := r ++ s in
  let rs := u8 (zlen rs) :: rs in
  let rs := rs ++ [sigType] in
  let rs := 48 :: rs in
  u8 (zlen rs) :: rs.
(** SignaturePubkey.go:53-91 encodeSignatureToScript. *)
Definition encode_sig (sig : bytes) (sigType : Z) : res bytes :=
  r <- slice sig 0 32 ;;
  s <- slice_from sig 32 ;;
  r <- der_trim r ;;
  s <- der_trim s ;;
  Ok (der_wrap r s sigType).
(** SignaturePubkey.go:92-133 encodeToScript. *)
Definition encode_script (sig pub : bytes) (sigType : Z) : res bytes :=
  e <- encode_sig sig sigType ;; Ok (e ++ (u8 (zlen pub) :: pub)).
(** vergeTransaction/txSigPub.go:39-80 SigPub.ToBytes (also vollar): the public key length is always 0x21 and the whole
    is preceded by its length. *)
Definition verge_sigpub (sig pub : bytes) : res bytes :=
  e <- encode_sig sig 1 ;;
  let rs := e ++ (33 :: pub) in Ok (u8 (zlen rs) :: rs).
(** hypercashTransaction/txSignature.go:72-77 encodeToScript. *)
Definition hypercash_sigpub (sig pub : bytes) (sigType : Z) : res bytes :=
  e <- encode_script sig pub sigType ;; Ok (u8 (zlen e) :: e).

(** aliencoinTransaction/txSigPub.go:45-51: the same loop, but testing r[i] after i bytes have been removed. *)
Fixpoint alien_strip (f : nat) (i : Z) (r : bytes) : res bytes :=
  match f with
  | O => Ok r
  | S f' =>
      ri <- idx r i ;;
      if ri =? 0 then r' <- slice_from r 1 ;; alien_strip f' (i + 1) r' else Ok r
  end.
(** aliencoinTransaction/txSigPub.go:42-52. *)
Definition alien_trim (r : bytes) : res bytes :=
  r0 <- idx r 0 ;; if Z.land r0 128 =? 128 then Ok (0 :: r) else alien_strip 32 0 r.
(** aliencoinTransaction/txSigPub.go:39-80 SigPub.ToBytes. *)
Definition alien_sigpub (sig pub : bytes) : res bytes :=
  r <- slice sig 0 32 ;;
  s <- slice_from sig 32 ;;
  r <- alien_trim r ;;
  s <- alien_trim s ;;
  let rs := der_wrap r s 1 ++ (33 :: pub) in Ok (u8 (zlen rs) :: rs).

(** btcLikeTxDriver/witness.go:10-35 TxWitness.encodeToScript: no zero byte is removed. *)
Definition witness_trim (r : bytes) : res bytes :=
  r0 <- idx r 0 ;; Ok (if Z.land r0 128 =? 128 then 0 :: r else r).
Definition witness_script (sig pub : bytes) (sigType : Z) : res bytes :=
  r <- slice sig 0 32 ;;
  s <- slice_from sig 32 ;;
  r <- witness_trim r ;;
  s <- witness_trim s ;;
  Ok (der_wrap r s sigType ++ (u8 (zlen pub) :: pub)).

(** "if index+n > limit { return error }" *)
Definition room {A} (script : bytes) (index n : Z) (k : res A) : res A := if zlen script <? index + n then Err else k.

(** SignaturePubkey.go:166-205 and 207-246 (decodeSignatureFromScript), 290-328 and 330-368 (decodeFromScriptBytes):
    one DER integer. Returns its last 32 bytes (padded on the left), its length byte and the next index. *)
Definition read_int (script : bytes) (index : Z) : res (bytes * Z * Z) :=
  room script index 1 (
  tag <- idx script index ;;
  if negb (tag =? 2) then Err else
  let index := index + 1 in
  room script index 1 (
  rLen <- idx script index ;;
  let index := index + 1 in
  if 33 <? rLen then Err else
  bad <- (if rLen =? 33 then
            room script index 2 (
            a <- idx script index ;; b <- idx script (index + 1) ;;
            Ok (negb (a =? 0) && negb (Z.land b 128 =? 128)))
          else Ok false) ;;
  if bad : bool then Err else
  room script index rLen (
  d <- slice script index (index + rLen) ;;
  d <- (if rLen =? 33 then slice_from d 1 else Ok d) ;;
  Ok (zeros (Z.to_nat (32 - rLen)) ++ d, rLen, index + rLen)))).
(** SignaturePubkey.go:245 and 368, sig = append(sig, sdata...). When r has 32 or 33 content bytes, sig is a slice of
    the script's own array that ends at index [at_] and has the rest of the array as capacity; append then writes the 32
    bytes of s over that rest. A padded r is a new array and nothing is overwritten. [arr] is the part of the array that
    matters to the caller. The array is that of the whole transaction, of which hex.DecodeString has made at least as
    many bytes more as the transaction has, so the 32 bytes always fit; what they change after [arr] is not modelled. *)
Definition append_in (arr : bytes) (rLen at_ : Z) (s : bytes) : bytes :=
  if 32 <=? rLen then firstn (length arr) (firstn (Z.to_nat at_) arr ++ s ++ skipn (Z.to_nat (at_ + 32)) arr) else arr.
(** SignaturePubkey.go:135-259 decodeSignatureFromScript; [tail] are the bytes of the array after the script. Returns the
    signature, the type byte and the bytes after the script as they are left. *)
Definition decode_sig (script tail : bytes) : res (bytes * Z * bytes) :=
  if zlen script =? 0 then Err else
  sigLen <- idx script 0 ;;
  if negb (sigLen + 1 =? zlen script) then Err else
  room script 1 1 (
  t <- idx script 1 ;;
  if negb (t =? 48) then Err else
  room script 2 1 (
  rsLen <- idx script 2 ;;
  '(r, rLen, rEnd) <- read_int script 3 ;;
  '(s, sLen, index) <- read_int script rEnd ;;
  let arr := append_in (script ++ tail) rLen rEnd s in
  room script index 1 (
  sigType <- idx arr index ;;
  if negb (u8 (rLen + sLen + 4) =? rsLen) || negb (u8 (rsLen + 3) =? sigLen) then Err else
  Ok (r ++ s, sigType, skipn (length script) arr)))).
(** SignaturePubkey.go:261-401 decodeFromScriptBytes (same in aliencoin, verge, vollar txSigPub.go; btcLikeTxDriver
    additionally requires the type byte to be SigHashAll). When the 32 bytes go on after the end of the
    script, the script is too short for the public key and the result is an error. *)
Definition decode_script (script : bytes) : res (bytes * bytes * Z) :=
  if zlen script =? 0 then Err else
  sigLen <- idx script 0 ;;
  room script 1 1 (
  t <- idx script 1 ;;
  if negb (t =? 48) then Err else
  room script 2 1 (
  rsLen <- idx script 2 ;;
  '(r, rLen, rEnd) <- read_int script 3 ;;
  '(s, sLen, index) <- read_int script rEnd ;;
  let arr := append_in script rLen rEnd s in
  room script index 1 (
  sigType <- idx arr index ;;
  let index := index + 1 in
  room script index 1 (
  pubLen <- idx arr index ;;
  let index := index + 1 in
  if negb (pubLen =? 33) then Err else
  room script index 33 (
  pub <- slice arr index (index + 33) ;;
  let index := index + 33 in
  if negb (u8 (rLen + sLen + 4) =? rsLen) || negb (u8 (rsLen + 3) =? sigLen) || negb (u8 (sigLen + pubLen + 2) =? u8 (zlen script)) then Err else
  if negb (index =? zlen script) then Err else
  Ok (r ++ s, pub, sigType)))))).

(** btcLikeTxDriver/witness.go:37-109 decodeFromSegwitBytes: no bounds checks; every integer is read as 32 bytes.
    Here the bytes that append (line 84) overwrites lie before the ones still to be read. *)
Definition segwit_int (script : bytes) (index : Z) : res (bytes * Z * Z) :=
  tag <- idx script index ;;
  if negb (tag =? 2) then Err else
  rLen <- idx script (index + 1) ;;
  let index := index + 2 in
  index <- (if rLen =? 33 then
              a <- idx script index ;;
              bad <- (if a =? 0 then Ok false else b <- idx script (index + 1) ;; Ok (negb (Z.land b 128 =? 128))) ;;
              if bad : bool then Err else Ok (index + 1)
            else Ok index) ;;
  d <- slice script index (index + 32) ;;
  Ok (d, rLen, index + 32).
Definition decode_segwit (sigHashAll : Z) (script : bytes) : res (bytes * bytes) :=
  sigLen <- idx script 0 ;;
  t <- idx script 1 ;;
  if negb (t =? 48) then Err else
  rsLen <- idx script 2 ;;
  '(r, rLen, index) <- segwit_int script 3 ;;
  '(s, sLen, index) <- segwit_int script index ;;
  ty <- idx script index ;;
  if negb (ty =? sigHashAll) then Err else
  pubLen <- idx script (index + 1) ;;
  if negb (pubLen =? 33) then Err else
  let index := index + 2 in
  pub <- slice script index (index + 33) ;;
  let index := index + 33 in
  if negb (u8 (rLen + sLen + 4) =? rsLen) || negb (u8 (rsLen + 3) =? sigLen) || negb (u8 (sigLen + pubLen + 2) =? u8 (zlen script)) then Err else
  if negb (index =? zlen script) then Err else
  Ok (r ++ s, pub).
