(** Model of /repo/addressEncoder/addressEncoder.go, eos.go, aeternity.go, eip55/eip55.go.
    The hash functions (owcrypt and blake256) are one parameter [H] indexed by the algorithm.
    A nil slice is represented by []; no function modelled here distinguishes the two on the
    profiles of encoderProfile.go except through its length. *)
From Coq Require Import String ZArith List Bool.
From Verif Require Import Go Base58Model Base58CheckModel Bech32Model Bech32mModel CashAddrModel.
Import ListNotations.
Open Scope Z_scope.

(** encoderProfile.go:27-35 type AddressType. *)
Record addr_type := mkAddr {
  encode_type : list Z; alphabet_of : list Z; checksum_type : list Z; hash_type : list Z;
  hash_len : Z; prefix_of : list Z; suffix_of : list Z }.

(** The hash algorithms the package calls (owcrypt.Hash with the given digest length). *)
Inductive alg :=
| DoubleSha256 | DoubleBlake256 | Keccak256 | Sha3_256 | Blake2b_32 | Blake2b_20 | Ripemd160
| Hash160 | Keccak256_Ripemd160 | Sha3_256_Ripemd160.

Section WithHashes.
Variable H : alg -> bytes -> bytes.

(** addressEncoder.go:23-47 CalcChecksum and calcChecksum; nil for an unknown rule. *)
Definition calc_checksum_of (data chkType : list Z) : res bytes :=
  if beq chkType (str "doubleSHA256") then slice (H DoubleSha256 data) 0 4 else
  if beq chkType (str "doubleBlake256") then slice (H DoubleBlake256 data) 0 4 else
  if beq chkType (str "keccak256") then slice (H Keccak256 data) 0 4 else
  if beq chkType (str "sha3_256") then slice (H Sha3_256 data) 0 4 else
  if beq chkType (str "blake2b_and_keccak256_first_twenty") then slice (H Keccak256 (H Blake2b_32 data)) 0 4 else
  if beq chkType (str "ripemd160") then slice (H Ripemd160 data) 0 4 else
  Ok [].

(** addressEncoder.go:59-63, the comparison loop. *)
Fixpoint checksum_loop (is : list Z) (checksum data : bytes) : res bool :=
  match is with
  | [] => Ok true
  | i :: r =>
      c <- idx checksum i ;;
      d <- idx data (zlen data - 4 + i) ;;
      if c =? d then checksum_loop r checksum data else Ok false
  end.
(** addressEncoder.go:50-65 VerifyChecksum and verifyChecksum. *)
Definition verify_checksum_of (data chkType : list Z) : res bool :=
  if zlen data <? 4 then Ok false else
  body <- slice data 0 (zlen data - 4) ;;
  checksum <- calc_checksum_of body chkType ;;
  checksum_loop [0; 1; 2; 3] checksum data.

(** addressEncoder.go:68-77 CatData and catData: plain concatenation (catData(x, nil) = x). *)
Definition cat_data (a b : bytes) : bytes := a ++ b.

(** addressEncoder.go:79-96 recoverData. The comparison loops (lines 80-91) are
    prefix_loop of Base58CheckModel.v, started at index 0 and at len(data)-len(suffix). *)
Definition recover_data (data prefix suffix : bytes) : res bytes :=
  _ <- prefix_loop prefix data 0 ;;
  _ <- prefix_loop suffix data (zlen data - zlen suffix) ;;
  slice data (zlen prefix) (zlen data - zlen suffix).

(** addressEncoder.go:99-108 EncodeData and encodeData. *)
Definition encode_data (data encType alpha : list Z) : res (list Z) :=
  if beq encType (str "base58") then al <- new_alphabet (runes alpha) ;; base58_encode al data
  else Ok [].
(** addressEncoder.go:111-127 DecodeData and decodeData. *)
Definition decode_data (data encType alpha chkType prefix suffix : list Z) : res bytes :=
  if beq encType (str "base58") then
    al <- new_alphabet (runes alpha) ;;
    ret <- base58_decode al data ;;
    ok <- verify_checksum_of ret chkType ;;
    if negb ok then Err else
    body <- slice ret 0 (zlen ret - 4) ;;
    recover_data body prefix suffix
  else Ok [].

(** addressEncoder.go:129-158 calcHash; nil for an unknown rule. *)
Definition calc_hash (data hashType : list Z) : res bytes :=
  if beq hashType (str "h160") then Ok (H Hash160 data) else
  if beq hashType (str "blake2b160") then Ok (H Blake2b_20 data) else
  if beq hashType (str "ripemd160") then Ok (H Ripemd160 data) else
  if beq hashType (str "keccak256_ripemd160") then Ok (H Keccak256_Ripemd160 data) else
  if beq hashType (str "sha3_256_ripemd160") then Ok (H Sha3_256_Ripemd160 data) else
  if beq hashType (str "keccak256") then Ok (H Keccak256 data) else
  if beq hashType (str "sha3_256_last_twenty") then slice (H Sha3_256 data) 12 32 else
  if beq hashType (str "keccak256_last_twenty") then slice (H Keccak256 data) 12 32 else
  if beq hashType (str "blake2b_and_keccak256_first_twenty") then slice (H Keccak256 (H Blake2b_32 data)) 0 20 else
  Ok [].

(** eip55/eip55.go:46-70 Eip55_encode: addr[12:] in hexadecimal. *)
Definition eip55_encode (addr : bytes) : res (list Z) :=
  t <- slice_from addr 12 ;; Ok (hex_encode t).
(** eip55/eip55.go:72-101 Eip55_decode. *)
Definition eip55_decode (s : list Z) : res bytes :=
  h <- slice s 0 2 ;;
  s <- (if beq h (str "0x") then slice_from s 2 else Ok s) ;;
  hex_decode s.

(** addressEncoder.go:218-223 and 227-232: left padding with the character '1'. *)
Definition pad_ones (n : Z) (s : list Z) : list Z := repeat 49 (Z.to_nat (n - zlen s)) ++ s.
(** addressEncoder.go:215-225, the loop over the full 8-byte blocks; [i] counts up to [cycle]. *)
Fixpoint xmr_enc_loop (k : nat) (i : Z) (al : alphabet) (data : bytes) : res (list Z) :=
  match k with
  | O => Ok []
  | S k' =>
      blk <- slice data (i * 8) ((i + 1) * 8) ;;
      b58 <- base58_encode al blk ;;
      t <- xmr_enc_loop k' (i + 1) al data ;;
      Ok (pad_ones 11 b58 ++ t)
  end.
(** addressEncoder.go:203-234, after the length tests. *)
Definition xmr_encode_blocks (al : alphabet) (data : bytes) : res (list Z) :=
  let cycle := Z.shiftr (zlen data) 3 in
  let remainder := zlen data - Z.shiftl cycle 3 in
  body <- xmr_enc_loop (Z.to_nat cycle) 0 al data ;;
  last <- slice data (Z.shiftl cycle 3) (Z.shiftl cycle 3 + remainder) ;;
  l58 <- base58_encode al last ;;
  Ok (body ++ pad_ones 7 l58).
(** addressEncoder.go:187-235, the XMR branch of AddressEncode; a wrong length gives the empty string. *)
Definition xmr_encode (hash : bytes) (T : addr_type) : res (list Z) :=
  if beq (hash_type T) [] && negb (zlen hash =? 64) then Ok [] else
  if beq (hash_type T) (str "payID") && negb (zlen hash =? 72) then Ok [] else
  let d := prefix_of T ++ hash in
  checksum <- slice (H Keccak256 d) 0 4 ;;
  al <- new_alphabet (runes (alphabet_of T)) ;;
  xmr_encode_blocks al (d ++ checksum).
(** addressEncoder.go:315-327, the loop over the 11-character blocks. *)
Fixpoint xmr_dec_loop (k : nat) (i : Z) (al : alphabet) (address : list Z) : res bytes :=
  match k with
  | O => Ok []
  | S k' =>
      blk <- slice address (i * 11) ((i + 1) * 11) ;;
      d <- base58_decode al blk ;;
      if zlen d <? 8 then Err else
      d8 <- slice_from d (zlen d - 8) ;;
      t <- xmr_dec_loop k' (i + 1) al address ;;
      Ok (d8 ++ t)
  end.
(** addressEncoder.go:312-337. *)
Definition xmr_decode_blocks (al : alphabet) (address : list Z) : res bytes :=
  let cycle := zlen address / 11 in
  let remainder := zlen address - cycle * 11 in
  body <- xmr_dec_loop (Z.to_nat cycle) 0 al address ;;
  last <- slice address (cycle * 11) (cycle * 11 + remainder) ;;
  d <- base58_decode al last ;;
  if zlen d <? 5 then Err else
  d5 <- slice_from d (zlen d - 5) ;;
  Ok (body ++ d5).
(** addressEncoder.go:301-348, the XMR branch of AddressDecode. *)
Definition xmr_decode (address : list Z) (T : addr_type) : res bytes :=
  if beq (hash_type T) [] && negb (zlen address =? 95) then Err else
  if beq (hash_type T) (str "payID") && negb (zlen address =? 106) then Err else
  al <- new_alphabet (runes (alphabet_of T)) ;;
  ret <- xmr_decode_blocks al address ;;
  ok <- verify_checksum_of ret (checksum_type T) ;;
  if negb ok then Err else
  body <- slice ret 0 (zlen ret - 4) ;;
  recover_data body (prefix_of T) (suffix_of T).

(** eos.go:38-42 encodeEOS, aeternity.go:29-33 encodeAE. That append may write into the spare
    capacity of the caller's slice is not modelled. *)
Definition encode_key (hash : bytes) (T : addr_type) : res (list Z) :=
  c <- calc_checksum_of hash (checksum_type T) ;;
  s <- encode_data (cat_data hash c) (str "base58") (alphabet_of T) ;;
  Ok (prefix_of T ++ s).

Fixpoint has_prefix (p s : list Z) : bool :=
  match p, s with
  | [], _ => true
  | x :: p', y :: s' => (x =? y) && has_prefix p' s'
  | _, _ => false
  end.
(** eos.go:28-36, aeternity.go:18-26: the common end of decodeEOS and decodeAE. *)
Definition decode_key_material (m : list Z) (T : addr_type) : res bytes :=
  al <- new_alphabet (runes (alphabet_of T)) ;;
  ret <- base58_decode al m ;;
  ok <- verify_checksum_of ret (checksum_type T) ;;
  if negb ok then Err else slice ret 0 (zlen ret - 4).
(** eos.go:15-36 decodeEOS. *)
Definition decode_eos (s : list Z) (T : addr_type) : res bytes :=
  m <- (if has_prefix (str "PUB_R1_") s then slice_from s 7
        else if has_prefix (str "PUB_K1_") s then slice_from s 7
        else if has_prefix (str "EOS") s then slice_from s 3
        else Err) ;;
  decode_key_material m T.
(** aeternity.go:11-27 decodeAE: without the prefix the empty string is decoded. *)
Definition decode_ae (s : list Z) (T : addr_type) : res bytes :=
  m <- (if has_prefix (str "ak_") s then slice_from s 3 else Ok []) ;;
  decode_key_material m T.

(** strings.EqualFold, for ASCII arguments. *)
Definition equal_fold (a b : list Z) : bool := beq (to_lower a) (to_lower b).

(** addressEncoder.go:178-247, AddressEncode after the optional hashing. *)
Definition encode_hashed (hash : bytes) (T : addr_type) : res (list Z) :=
  let e := encode_type T in
  if beq e (str "base32PolyMod") then cash_encode (checksum_type T) (alphabet_of T) hash else
  if beq e (str "eip55") then eip55_encode hash else
  if beq e (str "ICX") then Ok (checksum_type T ++ hex_encode hash) else
  if beq e (str "XMR") then xmr_encode hash T else
  if equal_fold e (str "eos") then encode_key hash T else
  if equal_fold e (str "aeternity") then encode_key hash T else
  let data := cat_data (cat_data (prefix_of T) hash) (suffix_of T) in
  c <- calc_checksum_of data (checksum_type T) ;;
  encode_data (cat_data data c) e (alphabet_of T).

(** addressEncoder.go:160-248 AddressEncode. The bech32m error case returns the empty string. *)
Definition address_encode (hash : bytes) (T : addr_type) : res (list Z) :=
  let e := encode_type T in
  if beq e (str "bech32m") then
    match bech32m_encode (checksum_type T) hash (alphabet_of T) with Err => Ok [] | r => r end else
  if beq e (str "bech32") then bech32_encode (checksum_type T) (alphabet_of T) hash (Some (prefix_of T)) else
  hash <- (if zlen hash =? hash_len T then Ok hash else calc_hash hash (hash_type T)) ;;
  encode_hashed hash T.

(** addressEncoder.go:286-300, the ICX branch of AddressDecode; the second index is read only
    when the first character is 'h'. *)
Definition icx_decode (address : list Z) : res bytes :=
  c0 <- idx address 0 ;;
  if negb (c0 =? 104) then Err else
  c1 <- idx address 1 ;;
  if negb (c1 =? 120) then Err else
  if negb (zlen address - 2 =? 40) then Err else
  s <- slice_from address 2 ;; hex_decode s.

(** addressEncoder.go:250-366 AddressDecode. *)
Definition address_decode (address : list Z) (T : addr_type) : res bytes :=
  let e := encode_type T in
  if beq e (str "bech32m") then
    r <- bech32m_decode address (checksum_type T) (alphabet_of T) ;;
    Ok (match r with Some d => d | None => [] end) else
  if beq e (str "bech32") then address_decode_bech32 address else
  if beq e (str "base32PolyMod") then
    ret <- cash_decode address ;; if zlen ret =? hash_len T then Ok ret else Err else
  if beq e (str "eip55") then
    ret <- eip55_decode address ;; if zlen ret =? 20 then Ok ret else Err else
  if beq e (str "ICX") then icx_decode address else
  if beq e (str "XMR") then xmr_decode address T else
  if equal_fold e (str "eos") then decode_eos address T else
  if equal_fold e (str "aeternity") then decode_ae address T else
  data <- decode_data address e (alphabet_of T) (checksum_type T) (prefix_of T) (suffix_of T) ;;
  if zlen data =? hash_len T then Ok data else Err.
End WithHashes.
