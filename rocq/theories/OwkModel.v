(** Model of /repo/owkeychain: extended keys, derivation, paths, text forms. *)
From Coq Require Import String ZArith List Bool.
From Verif Require Import Go PadLoop Base58Model Base58CheckModel.
Import ListNotations.
Open Scope Z_scope.

(** The curve constants of github.com/blocktree/go-owcrypt that the package compares with. The numeric values
    live in that dependency; the model takes an arbitrary classification of the uint32 curve types. *)
Inductive curve := SECP256K1 | SECP256R1 | SM2_STANDARD | ED25519 | ED25519_NORMAL | X25519 | CURVE25519_SHA256
  | BLS12381_NUL | BLS12381_AUG | PASTA | OtherCurve.

(** What the package takes from its dependencies. [mul_add curve pub scalar] is Point_mulBaseG_add: the point
    and the "is infinity" flag. *)
Record crypto := mkCrypto {
  kind : Z -> curve;
  hmac512 : bytes -> bytes -> bytes;          (* key, message *)
  sha512 : bytes -> bytes;
  dsha256 : bytes -> bytes;
  hash160 : bytes -> bytes;
  mulG : curve -> bytes -> bytes;             (* Point_mulBaseG *)
  mul_add : curve -> bytes -> bytes -> bytes * bool;
  decompress : curve -> bytes -> bytes;
  compress : curve -> bytes -> bytes
}.

(** extendedkey.go:47-56 ExtendedKey. *)
Record xkey := mkKey {
  depth : Z; parent_fp : bytes; serializes : Z; chain_code : bytes; key : bytes; is_private : bool; curve_type : Z }.

Definition is_bls (c : curve) : bool := match c with BLS12381_NUL | BLS12381_AUG => true | _ => false end.
(** "typeChoose == X25519 || typeChoose == CURVE25519_SHA256 => ED25519" *)
Definition norm_curve (c : curve) : curve := match c with X25519 | CURVE25519_SHA256 => ED25519 | _ => c end.

(** hdprofile.go:33-39 and 41-68 getCurveOrder, as the number it denotes; the default case is nil, i.e. 0. *)
Definition order_secp256k1 : Z := 0xFFFFFFFFFFFFFFFFFFFFFFFFFFFFFFFEBAAEDCE6AF48A03BBFD25E8CD0364141.
Definition order_secp256r1 : Z := 0xFFFFFFFF00000000FFFFFFFFFFFFFFFFBCE6FAADA7179E84F3B9CAC2FC632551.
Definition order_sm2 : Z := 0xFFFFFFFEFFFFFFFFFFFFFFFFFFFFFFFF7203DF6B21C6052B53BBF40939D54123.
Definition order_ed25519 : Z := 0x1000000000000000000000000000000014DEF9DEA2F79CD65812631A5CF5D3ED.
Definition order_bls : Z := 0x73eda753299d7d483339d80809a1d80553bda402fffe5bfeffffffff00000001.
Definition curve_order (c : curve) : Z :=
  match c with
  | SECP256K1 => order_secp256k1
  | SECP256R1 => order_secp256r1
  | SM2_STANDARD => order_sm2
  | ED25519 | ED25519_NORMAL | X25519 | CURVE25519_SHA256 => order_ed25519
  | BLS12381_NUL | BLS12381_AUG => order_bls
  | PASTA => 2 ^ 256 - 1
  | OtherCurve => 0
  end.

(** "for hm[0] >= curveoeder_bls12_381[0] { hm[0]-- }": the first byte becomes at most 0x72. *)
Definition clamp_bls (hm : bytes) : bytes :=
  match hm with b :: r => (if 0x73 <=? b then 0x72 else b) :: r | [] => [] end.
Definition clamp_pasta (hm : bytes) : bytes :=
  match hm with _ :: _ :: _ :: r => 0 :: 0 :: 0 :: r | l => l end.

Section WithCrypto.
Variable C : crypto.

(** extendedkey.go:73-95 getI. *)
Definition get_I (data k : bytes) (ser : Z) (c : curve) : bytes :=
  let hm := hmac512 C k ((if zlen data =? 32 then [0] else []) ++ data ++ be_bytes 4 ser) in
  let hm := if is_bls c then clamp_bls hm else hm in
  match c with PASTA => clamp_pasta hm | _ => hm end.

(** extendedkey.go:105-148 getPriChildViaPriParent; inverse (97-103) is [rev]. *)
Definition pri_child (il prikey : bytes) (c0 : curve) : res bytes :=
  let c := norm_curve c0 in
  match c with
  | ED25519 =>
      il28 <- slice il 0 28 ;;
      let n := be_num (rev il28) * 8 + be_num (rev prikey) in
      if n mod curve_order c =? 0 then Err else Ok (rev (pad32_buggy (big_bytes n)))
  | _ =>
      let n := be_num il in
      if (curve_order c <=? n) || (n =? 0) then Err else
      let m := (n + be_num prikey) mod curve_order c in
      if m =? 0 then Err else Ok (pad32_buggy (big_bytes m))
  end.

(** extendedkey.go:150-192 getPubChildViaPubParent. The padding loop of lines 160-165 uses a length read
    before the loop, so it pads fully. *)
Definition pub_child (il pubkey : bytes) (c0 : curve) : res bytes :=
  let c := norm_curve c0 in
  match c with
  | ED25519 =>
      il28 <- slice il 0 28 ;;
      let il2 := big_bytes (be_num (rev il28) * 8) in
      let '(p, inf) := mul_add C c pubkey (rev (zeros (32 - length il2) ++ il2)) in
      if inf : bool then Err else Ok p
  | _ =>
      let n := be_num il in
      if (curve_order c <=? n) || (n =? 0) then Err else
      if is_bls c then
        let '(p, inf) := mul_add C c pubkey il in if inf : bool then Err else Ok p
      else
        u <- slice_from (decompress C c pubkey) 1 ;;
        let '(p, inf) := mul_add C c u il in if inf : bool then Err else Ok (compress C c p)
  end.

(** extendedkey.go:194-206 getFP. *)
Definition get_fp (k : bytes) (private : bool) (c : curve) : res bytes :=
  slice (hash160 C (if private then mulG C (norm_curve c) k else k)) 0 4.

(** extendedkey.go:209-243 GenPrivateChild. *)
Definition gen_private (k : xkey) (ser : Z) : res xkey :=
  let c := norm_curve (kind C (curve_type k)) in
  if depth k =? 255 then Err else
  if negb (is_private k) then Err else
  let i := get_I (if 2 ^ 31 <=? ser then key k else mulG C c (key k)) (chain_code k) ser c in
  il <- slice i 0 32 ;;
  child <- pri_child il (key k) c ;;
  cc <- slice_from i 32 ;;
  fp <- get_fp (key k) (is_private k) c ;;
  Ok (mkKey (u8 (depth k + 1)) fp ser cc child true (curve_type k)).

(** extendedkey.go:246-276 GenPublicChild. *)
Definition gen_public (k : xkey) (ser : Z) : res xkey :=
  let c := norm_curve (kind C (curve_type k)) in
  if negb (is_private k) then
    if 2 ^ 31 <=? ser then Err else
    let i := get_I (key k) (chain_code k) ser c in
    il <- slice i 0 32 ;;
    child <- pub_child il (key k) c ;;
    cc <- slice_from i (zlen i / 2) ;;
    fp <- get_fp (key k) false c ;;
    Ok (mkKey (u8 (depth k + 1)) fp ser cc child false (curve_type k))
  else
    p <- gen_private k ser ;;
    Ok (mkKey (u8 (depth k + 1)) (parent_fp p) ser (chain_code p) (mulG C c (key p)) false (curve_type k)).

(** i[j] = f(i[j]) on a byte of the digest. *)
Fixpoint map_nth_byte (l : bytes) (j : nat) (f : Z -> Z) : bytes :=
  match l, j with
  | [], _ => []
  | x :: r, O => f x :: r
  | x :: r, S j' => x :: map_nth_byte r j' f
  end.
(** extendedkey.go:279-301 InitRootKeyFromSeed. *)
Definition init_root (seed : bytes) (ct : Z) : res xkey :=
  if (zlen seed <? 16) || (64 <? zlen seed) then Err else
  let i := sha512 C seed in
  let i := match kind C ct with
           | ED25519 | X25519 | CURVE25519_SHA256 =>
               map_nth_byte (map_nth_byte i 0 (fun b => Z.land b 248)) 31 (fun b => Z.lor (Z.land b 63) 64)
           | _ => i end in
  let i := if is_bls (kind C ct) then clamp_bls i else i in
  let i := match kind C ct with PASTA => map_nth_byte i 0 (fun b => Z.land b 3) | _ => i end in
  k <- slice i 0 32 ;; cc <- slice_from i 32 ;;
  Ok (mkKey 0 [0; 0; 0; 0] 0 cc k true ct).

(** hdkey.go:166-176 GetPublicKey, 141-151 GetPublicKeyBytes, 179-184 GetPrivateKeyBytes. *)
Definition get_public (k : xkey) : xkey :=
  if negb (is_private k) then k else
  mkKey (depth k) (parent_fp k) (serializes k) (chain_code k) (mulG C (norm_curve (kind C (curve_type k))) (key k)) false (curve_type k).
Definition get_public_bytes (k : xkey) : bytes :=
  if is_private k then mulG C (norm_curve (kind C (curve_type k))) (key k) else key k.
Definition get_private_bytes (k : xkey) : res bytes := if is_private k then Ok (key k) else Err.
(** hdkey.go:154-163 GetUncompressedPublicKeyBytes; the curve is not normalised here. *)
Definition get_uncompressed_bytes (k : xkey) : res bytes :=
  let c := kind C (curve_type k) in
  slice_from (decompress C c (if is_private k then mulG C c (key k) else key k)) 1.

(** ** Paths. *)
(** strings.Replace(path, " ", "", -1) *)
Definition remove_spaces (s : list Z) : list Z := filter (fun c => negb (c =? 32)) s.
(** strings.Split(s, "/"): never empty. *)
Fixpoint split_slash (s : list Z) : list (list Z) :=
  match s with
  | [] => [[]]
  | c :: r => if c =? 47 then [] :: split_slash r
              else match split_slash r with h :: t => (c :: h) :: t | [] => [[c]] end
  end.
(** strings.Index(s, "'"): position of the first apostrophe, -1 if none. *)
Fixpoint index_byte (x : Z) (s : list Z) : Z :=
  match s with
  | [] => -1
  | c :: r => if c =? x then 0 else let i := index_byte x r in if i =? -1 then -1 else i + 1
  end.
(** strconv.Atoi: optional sign, at least one decimal digit, nothing else, value in the int64 range. *)
Fixpoint digits_value (s : list Z) (acc : Z) : option Z :=
  match s with
  | [] => Some acc
  | c :: r => if (48 <=? c) && (c <=? 57) then digits_value r (acc * 10 + (c - 48)) else None
  end.
Definition atoi (s : list Z) : res Z :=
  let '(neg, ds) := match s with
    | c :: r => if c =? 43 then (false, r) else if c =? 45 then (true, r) else (false, s)
    | [] => (false, s) end in
  match ds with
  | [] => Err
  | _ => match digits_value ds 0 with
         | None => Err
         | Some v => let w := if neg : bool then - v else v in
                     if (- 2 ^ 63 <=? w) && (w <? 2 ^ 63) then Ok w else Err
         end
  end.
(** hdkey.go:39-57 (and 106-124), one path element to a child number. *)
Definition elem_serial (elem : list Z) : res Z :=
  if zlen elem =? 0 then Err else
  if index_byte 39 elem =? zlen elem - 1 then
    e <- slice elem 0 (zlen elem - 1) ;; v <- atoi e ;; Ok (u32 (u32 v + 2 ^ 31))
  else v <- atoi elem ;; Ok (u32 v).
(** hdkey.go:38-64, the loop over the elements. *)
Fixpoint derive_elems (gen : xkey -> Z -> res xkey) (k : xkey) (es : list (list Z)) : res xkey :=
  match es with
  | [] => Ok k
  | e :: r => s <- elem_serial e ;; k' <- gen k s ;; derive_elems gen k' r
  end.
(** strings.Index(path, "m/") != 0 *)
Definition starts_with (p s : list Z) : bool := beq (firstn (length p) s) p.
(** hdkey.go:17-66 DerivedPrivateKeyWithPath. *)
Definition derive_private_path (seed : bytes) (p : list Z) (ct : Z) : res xkey :=
  let path := remove_spaces p in
  if beq path (str "m") || beq path (str "/") || beq path [] then init_root seed ct else
  if negb (starts_with (str "m/") path) then Err else
  k <- init_root seed ct ;;
  rest <- slice_from path 2 ;;
  derive_elems gen_private k (split_slash rest).
(** hdkey.go:97-133 DerivedPublicKeyFromPath. *)
Definition derive_public_path (k : xkey) (p : list Z) : res xkey :=
  let path := remove_spaces p in
  if negb (starts_with (str "/") path) then Err else
  es <- slice_from (split_slash path) 1 ;;
  derive_elems gen_public k es.
(** hdkey.go:68-78 GetCoinRootPublicKey and 80-94 DerivedPrivateKeyBytes; the coin type is (hdIndex, curveType). *)
Definition open_wallet_path : list Z := str "m/44'/88'".
Definition coin_root_public (seed : bytes) (hd ct : Z) : res xkey :=
  t <- derive_private_path seed open_wallet_path ct ;; gen_public t hd.
Definition derived_private_bytes (seed : bytes) (hd ct ser : Z) : res bytes :=
  t <- derive_private_path seed open_wallet_path ct ;;
  r <- gen_private t hd ;; k <- gen_private r ser ;; Ok (key k).

(** ** Text forms (owencode.go, multisig.go). *)
Definition ow_alphabet_runes : list Z := str "123456789ABCDEFGHJKLMNPQRSTUVWXYZabcdefghijkmnopqrstuvwxyz".
Definition owprv_prefix : bytes := [0x07; 0xa8; 0x10; 0x0c; 0x28].     (* hdprofile.go:25 *)
Definition owpub_prefix : bytes := [0x07; 0xa8; 0x10; 0x31; 0xa2].     (* hdprofile.go:26 *)
Definition owpub_prefix_bls : bytes := [0x3e; 0x00; 0xfa; 0xea; 0x69]. (* hdprofile.go:27 *)
(** owencode.go:16-30 Base58checkEncode. *)
Definition ow_check_encode (data fx : bytes) : res (list Z) :=
  c <- slice (dsha256 C (fx ++ data)) 0 4 ;;
  al <- new_alphabet ow_alphabet_runes ;; base58_encode al (fx ++ data ++ c).
(** owencode.go:32-52 Base58checkDecode. [prefix_loop] (Base58CheckModel) is the loop of lines 38-42, [check_split]
    the checksum comparison of lines 44-50. *)
Definition ow_check_decode (address : list Z) (fix_ : bytes) : res bytes :=
  al <- new_alphabet ow_alphabet_runes ;;
  d <- base58_decode al address ;;
  _ <- prefix_loop fix_ d 0 ;;
  _ <- check_split (dsha256 C) d ;;
  slice d (zlen fix_) (zlen d - 4).
(** the curves whose public keys are written with a zero byte in front *)
Definition zero_marked (c : curve) (private : bool) : bool :=
  match c with X25519 | ED25519 | CURVE25519_SHA256 => true | _ => private end.
(** owencode.go:64-83 OWEncode. *)
Definition ow_encode (k : xkey) : res (list Z) :=
  let data := be_bytes 4 (curve_type k) ++ [depth k] ++ parent_fp k ++ be_bytes 4 (serializes k) ++ chain_code k ++
    (if zero_marked (kind C (curve_type k)) (is_private k) then [0] else []) ++ key k in
  if is_private k then ow_check_encode data owprv_prefix else
  if is_bls (kind C (curve_type k)) then ow_check_encode data owpub_prefix_bls else
  ow_check_encode data owpub_prefix.
(** owencode.go:85-125 OWDecode. *)
Definition ow_parse (private : bool) (d : bytes) : res xkey :=
  ct <- slice d 0 4 ;;
  dep <- idx d 4 ;;
  fp <- slice d 5 9 ;;
  ser <- slice d 9 13 ;;
  cc <- slice d 13 45 ;;
  let c := be_num ct in
  if zero_marked (kind C c) private then
    z <- idx d 45 ;;
    if negb (z =? 0) then Err else
    k <- slice_from d 46 ;; Ok (mkKey dep fp (be_num ser) cc k private c)
  else k <- slice_from d 45 ;; Ok (mkKey dep fp (be_num ser) cc k private c).
Definition ow_decode (s : list Z) : res xkey :=
  if starts_with (str "owpub") s then
    d <- (match ow_check_decode s owpub_prefix with Err => ow_check_decode s owpub_prefix_bls | r => r end) ;; ow_parse false d
  else if starts_with (str "owprv") s then
    d <- ow_check_decode s owprv_prefix ;; ow_parse true d
  else Err.

(** multisig.go:8-14 ChainPrefix, MultiSigShare. *)
Definition chain_prefix : bytes := [0x08; 0x61; 0x24; 0x96; 0x12; 0xae; 0x5c].
Record share := mkShare { sh_pubkey : bytes; sh_chain : bytes; sh_curve : Z }.
(** multisig.go:16-29 ChianEncode. *)
Definition chain_encode (m : share) : res (list Z) :=
  al <- new_alphabet ow_alphabet_runes ;;
  base58_encode al (chain_prefix ++ (if zlen (sh_pubkey m) =? 32 then [0] else []) ++ sh_pubkey m ++ sh_chain m ++ be_bytes 4 (sh_curve m)).
(** multisig.go:31-58 ChainDecode. *)
Definition chain_decode (s : list Z) : res share :=
  if negb (starts_with (str "owchain") s) then Err else
  al <- new_alphabet ow_alphabet_runes ;;
  d <- base58_decode al s ;;
  if negb (zlen d =? 76) then Err else
  p <- slice d 0 7 ;;
  if negb (beq p chain_prefix) then Err else
  pub <- slice d 7 40 ;;
  b0 <- idx pub 0 ;;
  pub' <- (if b0 =? 0 then slice_from pub 1 else Ok pub) ;;
  cc <- slice d 40 72 ;;
  ct <- slice_from d 72 ;;
  Ok (mkShare pub' cc (be_num ct)).
(** multisig.go:60-77 GetMultiSigShareData. *)
Definition multisig_share_data (owpub : list Z) : res (list Z) :=
  k <- ow_decode owpub ;;
  let p := get_public k in
  chain_encode (mkShare (key p) (chain_code p) (curve_type p)).
End WithCrypto.
