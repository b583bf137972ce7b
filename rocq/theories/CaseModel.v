(** Letter case outside ASCII: strings.ToLower, strings.ToUpper and strings.EqualFold as Go computes them, and the functions of the
    repository that depend on it (the decoder of bech32m addresses, the registry of transaction signers).
    [lower] and [upper] are unicode.ToLower and unicode.ToUpper, [fold] says whether two characters are equal up to unicode.SimpleFold. *)
From Coq Require Import String ZArith List Bool.
From Verif Require Import Go Base58Model Bech32mModel AddressProfiles AddressModel SigModel SignerModel.
Import ListNotations.
Open Scope Z_scope.

(** strings.ToLower, strings.ToUpper: the characters of the text, one by one; a byte that belongs to no character counts as U+FFFD. *)
Definition strings_map (f : Z -> Z) (s : list Z) : list Z := flat_map utf8_rune (map f (runes s)).
Fixpoint pointwise (e : Z -> Z -> bool) (a b : list Z) : bool :=
  match a, b with
  | [], [] => true
  | x :: a, y :: b => e x y && pointwise e a b
  | _, _ => false
  end.
(** strings.EqualFold. *)
Definition strings_equal_fold (fold : Z -> Z -> bool) (a b : list Z) : bool := pointwise fold (runes a) (runes b).

Section Bech32m.
Variable lower upper : Z -> Z.
(** addressEncoder/bech32m/bech32m.go:103-134, the part of Decode after the text has been put in lower case. *)
Definition bm_lowered (s charset : list Z) : res (list Z * list Z * variant) :=
  let pos := last_index 49 s in
  if pos <? 1 then Err else
  if zlen s <? pos + 7 then Err else
  hrp <- slice s 0 pos ;;
  if existsb (fun c => (c <? 33) || (126 <? c)) hrp then Err else
  data <- chars_to_digits charset (skipn (Z.to_nat (pos + 1)) s) ;;
  match bm_verify hrp data with
  | None => Err
  | Some spec => d <- slice data 0 (zlen data - 6) ;; Ok (hrp, d, spec)
  end.
(** bech32m.go:95-135 Decode. *)
Definition uni_bm_decode (s charset : list Z) : res (list Z * list Z * variant) :=
  if 90 <? zlen s then Err else
  if negb (beq (strings_map lower s) s) && negb (beq (strings_map upper s) s) then Err else
  bm_lowered (strings_map lower s) charset.
(** bech32m.go:172-184 Bech32mDecode; a nil slice without an error is None. *)
Definition uni_bech32m_decode (address prefix charset : list Z) : res (option (list Z)) :=
  '(prechk, data, spec) <- uni_bm_decode address charset ;;
  if negb (beq prechk prefix) then Ok None else
  match spec with
  | Bech32 => Ok None
  | Bech32m => h <- convertbits data 5 8 false ;; Ok (Some h)
  end.
(** addressEncoder/addressEncoder.go:250-366 AddressDecode; only the bech32m branch (252-254) looks at letter case outside ASCII in the
    address. A profile whose EncodeType is not ASCII is not considered (lines 350 and 354 compare it with EqualFold). *)
Definition uni_address_decode (H : alg -> bytes -> bytes) (address : list Z) (T : addr_type) : res bytes :=
  if beq (encode_type T) (str "bech32m") then
    r <- uni_bech32m_decode address (checksum_type T) (alphabet_of T) ;;
    Ok (match r with Some d => d | None => [] end)
  else address_decode H address T.
End Bech32m.

Section Signers.
Variable upper : Z -> Z.
Variable fold : Z -> Z -> bool.
Variable M : Type. (* transaction signers *)
(** signatureSet/init.go:62-73 RegTxSigner; a nil manager is None. *)
Definition uni_reg_tx_signer (m : registry M) (name : list Z) (manager : option M) : res (registry M) :=
  let name := strings_map upper name in
  match manager with
  | None => Panic
  | Some x => match lookup M m name with Some _ => Ok m | None => Ok ((name, x) :: m) end
  end.
(** init.go:76-83 GetTxSigner. *)
Definition uni_get_tx_signer (m : registry M) (symbol : list Z) : option M := lookup M m (strings_map upper symbol).
(** A sequence of RegTxSigner calls. *)
Fixpoint uni_reg_all (m : registry M) (calls : list (list Z * option M)) : res (registry M) :=
  match calls with
  | [] => Ok m
  | (n, x) :: r => m' <- uni_reg_tx_signer m n x ;; uni_reg_all m' r
  end.
(** signatureSet/signature.go:11-75 SignTxHash; the other parameters are those of [sign_tx_hash]. *)
Definition uni_sign_tx_hash hmac pre ecc_sign gen_pub success failure (manager_sign : M -> bytes -> bytes -> Z -> res bytes) ecc_plain ecc_secp256k1
    (fuel : nat) (m : registry M) (symbol : list Z) (msg key : bytes) (ecc : Z) : option (res bytes) :=
  match uni_get_tx_signer m symbol with
  | Some s => Some (manager_sign s msg key ecc)
  | None =>
      let det := det_signature hmac pre ecc_sign gen_pub success failure fuel key msg in
      if strings_equal_fold fold symbol (ascii "NAS") then status_ok success det
      else if strings_equal_fold fold symbol (ascii "TRX") then status_ok success det
      else if ecc =? ecc_secp256k1 then
        let '(sig, ret) := ecc_plain key msg (u16 (zlen msg)) ecc in
        Some (if negb (ret =? success) then Err else serialize_s secp_order secp_half sig)
      else
        let '(sig, ret) := ecc_plain key msg (u16 (zlen msg)) ecc in
        Some (if negb (ret =? success) then Err else Ok sig)
  end.
End Signers.
