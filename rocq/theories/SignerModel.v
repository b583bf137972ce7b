(** Deterministic recoverable signers and the signer registry of signatureSet.
    signatureSet/ethSignature.go, tronSignature.go, nasSignature.go and icxSignature.go are the same program up to the
    prefix of the function names; line numbers refer to ethSignature.go.
    External: [hmac] is owcrypt.Hmac(key, data, HMAC_SHA256_ALG); [pre] the status of owcrypt.PreprocessRandomNum;
    [ecc_sign key hash nonce] is owcrypt.Signature with the nonce that PreprocessRandomNum stored; [gen_pub] is
    owcrypt.GenPubkey; [success] and [failure] the two status constants. *)
From Coq Require Import String ZArith List Bool.
From Verif Require Import Go PadLoop SigModel.
Import ListNotations.
Open Scope Z_scope.

(** copy(dst, src), with the whole of dst as target. *)
Definition go_copy (dst src : bytes) : bytes := firstn (length dst) src ++ skipn (length src) dst.

(** owcrypt.GetCurveOrder(ECC_CURVE_SECP256K1): external; the same bytes as signatureSet/signature.go:77 CurveOrder. *)
Definition order_bytes : bytes :=
  [0xFF; 0xFF; 0xFF; 0xFF; 0xFF; 0xFF; 0xFF; 0xFF; 0xFF; 0xFF; 0xFF; 0xFF; 0xFF; 0xFF; 0xFF; 0xFE;
   0xBA; 0xAE; 0xDC; 0xE6; 0xAF; 0x48; 0xA0; 0x3B; 0xBF; 0xD2; 0x5E; 0x8C; 0xD0; 0x36; 0x41; 0x41].

(** One line of ethSignature.go:101-104 and 110-117: n bytes from a[i] on, joined with shifts and "|". *)
Fixpoint word (a : bytes) (i : Z) (n : nat) (acc : Z) : res Z :=
  match n with
  | O => Ok acc
  | S m => b <- idx a i ;; word a (i + 1) m (Z.lor acc (Z.shiftl b (8 * Z.of_nat m)))
  end.
(** ethSignature.go:99-106 eth_set_uint64. (b has len(a)/8 >= 4 elements whenever all the a[..] exist.) *)
Definition set_uint64 (a : bytes) : res (Z * Z * Z * Z) :=
  b0 <- word a 0 8 0 ;; b1 <- word a 8 8 0 ;; b2 <- word a 16 8 0 ;; b3 <- word a 24 8 0 ;; Ok (b0, b1, b2, b3).
(** ethSignature.go:108-119 eth_set_uint32. *)
Definition set_uint32 (a : bytes) : res (Z * Z * Z * Z * Z * Z * Z * Z) :=
  b0 <- word a 0 4 0 ;; b1 <- word a 4 4 0 ;; b2 <- word a 8 4 0 ;; b3 <- word a 12 4 0 ;;
  b4 <- word a 16 4 0 ;; b5 <- word a 20 4 0 ;; b6 <- word a 24 4 0 ;; b7 <- word a 28 4 0 ;; Ok (b0, b1, b2, b3, b4, b5, b6, b7).

(** ethSignature.go:121-136 eth_check_overflow_uint64. *)
Definition overflow64 (a : bytes) : res bool :=
  '(a0, a1, a2, a3) <- set_uint64 a ;;
  '(c0, c1, c2, c3) <- set_uint64 order_bytes ;;
  let no := a0 <? c0 in
  let no := no || (a1 <? c1) in
  let yes := (c1 <? a1) && negb no in
  let no := no || (a2 <? c2) in
  let yes := yes || (c2 <? a2) && negb no in
  Ok (yes || (c3 <=? a3) && negb no).
(** ethSignature.go:138-161 eth_check_overflow_uint32. *)
Definition overflow32 (a : bytes) : res bool :=
  '(a0, a1, a2, a3, a4, a5, a6, a7) <- set_uint32 a ;;
  '(c0, c1, c2, c3, c4, c5, c6, c7) <- set_uint32 order_bytes ;;
  let no := a0 <? c0 in
  let no := no || (a1 <? c1) in
  let no := no || (a2 <? c2) in
  let no := no || (a3 <? c3) in
  let yes := (c3 <? a3) && negb no in
  let no := no || (a4 <? c4) && negb yes in
  let yes := yes || (c4 <? a4) && negb no in
  let no := no || (a5 <? c5) && negb yes in
  let yes := yes || (c5 <? a5) && negb no in
  let no := no || (a6 <? c6) && negb yes in
  let yes := yes || (c6 <? a6) && negb no in
  Ok (yes || (c7 <=? a7) && negb no).
(** ethSignature.go:163-167 eth_check_is_zero. *)
Definition is_zero (a : bytes) : res bool :=
  '(b0, b1, b2, b3) <- set_uint64 a ;; Ok ((b3 =? 0) && (b2 =? 0) && (b1 =? 0) && (b0 =? 0)).

Section Signer.
Variable hmac : bytes -> bytes -> bytes.
Variable pre : bytes -> Z.
Variable ecc_sign : bytes -> bytes -> bytes -> bytes * Z.
Variable gen_pub : bytes -> bytes * Z.
Variables success failure : Z.

(** ethSignature.go:10-43 eth_hmac_rfc6979_init: k||v. *)
Definition rfc_init (key : bytes) (keylen : nat) : bytes :=
  let k := zeros 32 in
  let v := repeat 1 32 in
  let seed := go_copy (zeros keylen) key in
  let k := hmac k (go_copy (zeros 32) v ++ [0] ++ seed) in
  let v' := hmac k v in
  let k := hmac k (go_copy v v' ++ [1] ++ seed) in
  let v := hmac k v' in
  go_copy (zeros 32) k ++ go_copy (zeros 32) v.
(** ethSignature.go:53-71 eth_hmac_rfc6979_gnerate, for nouncelen = 32 (its only use, line 90). *)
Definition rfc_generate (k v : bytes) (retry : bool) : bytes * bool :=
  let k' := if retry then hmac k (go_copy (zeros 32) v ++ [0]) else k in
  let v' := if retry then hmac k' v else v in
  (go_copy (zeros 32) (hmac k' v'), true).
(** ethSignature.go:88-93: the loop i = i .. counter, n iterations to go. The flag [retry] declared inside the loop
    body hides the outer one, so the outer one keeps its value. *)
Fixpoint nonce_loop (ret : bytes) (retry : bool) (n : nat) (i : Z) (nounce : bytes) : res bytes :=
  match n with
  | O => Ok nounce
  | S n' =>
      k <- slice ret 0 32 ;; v <- slice_from ret 32 ;;
      let '(temp, _) := rfc_generate k v retry in
      lo <- slice nounce 0 (u32 (i * 32)) ;;
      mid <- slice nounce (u32 (i * 32)) (u32 ((i + 1) * 32)) ;;
      hi <- slice_from nounce (u32 ((i + 1) * 32)) ;;
      nonce_loop ret retry n' (i + 1) (lo ++ go_copy mid temp ++ hi)
  end.
(** ethSignature.go:73-97 eth_nonce_function_rfc6979, for algo = extradata = nil (its only use, line 233). *)
Definition nonce_fn (msg key : bytes) (counter : Z) : res bytes :=
  let keydata := go_copy (zeros 32) key ++ go_copy (zeros 32) msg ++ zeros 48 in
  let nounce := zeros (Z.to_nat (u32 ((counter + 1) * 32))) in
  nonce_loop (rfc_init keydata 64) false (Z.to_nat (counter + 1)) 0 nounce.

(** ethSignature.go:169-214 eth_signatureInner: (signature, status); nil is []. *)
Definition sign_inner (prikey hash nounce : bytes) : res (bytes * Z) :=
  let ret := pre nounce in
  if negb (ret =? success) then Ok ([], ret) else
  let '(sig, ret) := ecc_sign prikey hash nounce in
  if negb (ret =? success) then Ok ([], ret) else
  let '(y, ret1) := gen_pub nounce in
  if negb (ret1 =? success) then Ok ([], ret1) else
  y63 <- idx y 63 ;;
  let recid := if y63 mod 2 =? 1 then 1 else 0 in
  r <- slice sig 0 32 ;;
  s <- slice sig 32 64 ;;
  let order := be_num order_bytes in
  let '(s', recid) := if order / 2 <? be_num s then (go_copy s (pad32_buggy (big_bytes (order - be_num s))), Z.lxor recid 1) else (s, recid) in
  Ok (r ++ s' ++ [recid], ret).

(** ethSignature.go:232-244, the loop of EthSignature, cut after [fuel] rounds (None: still running). *)
Fixpoint sign_loop (fuel : nat) (prikey hash : bytes) (counter : Z) : option (res (bytes * Z)) :=
  match fuel with
  | O => None
  | S f =>
      match (nounce <- nonce_fn hash prikey counter ;; o <- overflow32 nounce ;; z <- is_zero nounce ;;
             if negb o && negb z then
               '(sig, ret) <- sign_inner prikey hash nounce ;; Ok (if ret =? success then Some (sig, ret) else None)
             else Ok None) with
      | Ok (Some r) => Some (Ok r)
      | Ok None => sign_loop f prikey hash (u32 (counter + 1))
      | Err => Some Err
      | Panic => Some Panic
      end
  end.
(** ethSignature.go:222-248 EthSignature; tronSignature.go TronSignature, nasSignature.go NasSignature,
    icxSignature.go ICXSignature. *)
Definition det_signature (fuel : nat) (prikey hash : bytes) : option (res (bytes * Z)) :=
  if negb (zlen hash =? 32) then Some (Ok ([], failure)) else
  match (o <- overflow64 prikey ;; z <- is_zero prikey ;; Ok (negb o && negb z)) with
  | Ok true => sign_loop fuel prikey hash 0
  | Ok false => Some (Ok (zeros 65, 0))
  | Err => Some Err
  | Panic => Some Panic
  end.

(** ** Registry *)
Variable M : Type.
Variable manager_sign : M -> bytes -> bytes -> Z -> res bytes.
(** owcrypt.Signature(privateKey, nil, 0, msg, uint16(len(msg)), eccType) without an outside nonce. *)
Variable ecc_plain : bytes -> bytes -> Z -> Z -> bytes * Z.
Variable ecc_secp256k1 : Z.

(** strings.ToUpper, for ASCII text (other characters are left alone, a simplification). *)
Definition to_upper (s : list Z) : list Z := map (fun c => if (97 <=? c) && (c <=? 122) then c - 32 else c) s.
(** strings.EqualFold, for ASCII text. *)
Definition equal_fold (a b : list Z) : bool := beq (to_upper a) (to_upper b).
(** A Go map with string keys. *)
Definition registry := list (list Z * M).
Fixpoint lookup (m : registry) (name : list Z) : option M :=
  match m with
  | [] => None
  | (n, x) :: r => if beq n name then Some x else lookup r name
  end.
(** signatureSet/init.go:60-72 RegTxSigner; a nil manager is None. *)
Definition reg_tx_signer (m : registry) (name : list Z) (manager : option M) : res registry :=
  let name := to_upper name in
  match manager with
  | None => Panic
  | Some x => match lookup m name with Some _ => Ok m | None => Ok ((name, x) :: m) end
  end.
(** signatureSet/init.go:75-82 GetTxSigner. *)
Definition get_tx_signer (m : registry) (symbol : list Z) : option M := lookup m (to_upper symbol).
(** A sequence of RegTxSigner calls. *)
Fixpoint reg_all (m : registry) (calls : list (list Z * option M)) : res registry :=
  match calls with
  | [] => Ok m
  | (n, x) :: r => m' <- reg_tx_signer m n x ;; reg_all m' r
  end.
(** signatureSet/signature.go:11-73 SignTxHash; [fuel] as in [det_signature]. *)
Definition ascii (s : string) : list Z := map (fun c => Z.of_nat (Ascii.nat_of_ascii c)) (list_ascii_of_string s).
Definition status_ok (r : option (res (bytes * Z))) : option (res bytes) :=
  match r with
  | None => None
  | Some o => Some ('(sig, ret) <- o ;; if ret =? success then Ok sig else Err)
  end.
Definition sign_tx_hash (fuel : nat) (m : registry) (symbol : list Z) (msg key : bytes) (ecc : Z) : option (res bytes) :=
  match get_tx_signer m symbol with
  | Some s => Some (manager_sign s msg key ecc)
  | None =>
      if equal_fold symbol (ascii "NAS") then status_ok (det_signature fuel key msg)
      else if equal_fold symbol (ascii "TRX") then status_ok (det_signature fuel key msg)
      else if ecc =? ecc_secp256k1 then
        let '(sig, ret) := ecc_plain key msg (u16 (zlen msg)) ecc in
        Some (if negb (ret =? success) then Err else serialize_s secp_order secp_half sig)
      else
        let '(sig, ret) := ecc_plain key msg (u16 (zlen msg)) ecc in
        Some (if negb (ret =? success) then Err else Ok sig)
  end.
(** signatureSet/init.go:28-52, the names registered at start, in order. *)
Definition default_names : list (list Z) :=
  map ascii ["DDM"; "EOS"; "ONT"; "PIA"; "VSYS"; "TV"; "WICC"; "XRP"; "NULS"; "MOAC"; "ETH"; "TRUE"; "VCC"; "BTS"; "BAR"; "ARK";
             "SINOC"; "TGC"; "ABBC"; "GST"; "BETH"; "NTN"; "XWC"; "RCP"; "ACC"]%string.
End Signer.
