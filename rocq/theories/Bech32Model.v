(** Model of /repo/addressEncoder/bech32/bech32.go.
    btcTransaction/bech32.go (and the copies in omni/hc/zencash/cxc/...) follow the same
    algorithm.  An int8 is represented by its bit pattern 0..255; every
    operation used by the code on these values (shift left, arithmetic shift right
    followed by a mask, or) only depends on the pattern. *)
From Coq Require Import String ZArith List Bool.
From Verif Require Import Go.
Import ListNotations.
Open Scope Z_scope.

(** bech32.go:19-27, CHARSET_REV. *)
Definition charset_rev : list Z :=
  [ -1; -1; -1; -1; -1; -1; -1; -1; -1; -1; -1; -1; -1; -1; -1; -1;
    -1; -1; -1; -1; -1; -1; -1; -1; -1; -1; -1; -1; -1; -1; -1; -1;
    -1; -1; -1; -1; -1; -1; -1; -1; -1; -1; -1; -1; -1; -1; -1; -1;
    15; -1; 10; 17; 21; 20; 26; 30; 7; 5; -1; -1; -1; -1; -1; -1;
    -1; 29; -1; 24; 13; 25; 9; 8; 23; -1; 18; 22; 31; 27; 19; -1;
    1; 0; 3; 16; 11; 28; 12; 14; 6; 4; 2; -1; -1; -1; -1; -1;
    -1; 29; -1; 24; 13; 25; 9; 8; 23; -1; 18; 22; 31; 27; 19; -1;
    1; 0; 3; 16; 11; 28; 12; 14; 6; 4; 2; -1; -1; -1; -1; -1 ].

(** bech32.go:34-43, expandPrefix. *)
Definition expand_prefix (prefix : list Z) : list Z :=
  map (fun c => Z.shiftr c 5) prefix ++ [0] ++ map (fun c => Z.land c 31) prefix.

(** uint32(v) for an int8 given by its pattern: sign extension. *)
Definition i8_to_u32 (v : Z) : Z := if v <? 128 then v else v + 4294967040.

(** bech32.go:91-248, one iteration of the polyMod loop. *)
Definition xor_if (b : bool) (c g : Z) : Z := if b then Z.lxor c g else c.
Definition poly_step (c v : Z) : Z :=
  let c0 := u8 (Z.shiftr c 25) in
  let c1 := Z.lxor (u32 (Z.shiftl (Z.land c 33554431) 5)) (i8_to_u32 v) in
  let c2 := xor_if (negb (Z.land c0 1 =? 0)) c1 996825010 in   (* 0x3b6a57b2 *)
  let c3 := xor_if (negb (Z.land c0 2 =? 0)) c2 642813549 in   (* 0x26508e6d *)
  let c4 := xor_if (negb (Z.land c0 4 =? 0)) c3 513874426 in   (* 0x1ea119fa *)
  let c5 := xor_if (negb (Z.land c0 8 =? 0)) c4 1027748829 in  (* 0x3d4233dd *)
  xor_if (negb (Z.land c0 16 =? 0)) c5 705979059.              (* 0x2a1462b3 *)

(** bech32.go:45-251, polyMod. *)
Definition poly_mod (v : list Z) : Z := Z.lxor (fold_left poly_step v 1) 1.

(** bech32.go:260-262, verifyChecksum. *)
Definition verify_checksum (prefix : list Z) (data : list Z) : bool :=
  poly_mod (expand_prefix prefix ++ data) =? 0.

(** bech32.go:264-278, calcChecksum. *)
Definition calc_checksum (prefix : list Z) (data : list Z) : list Z :=
  let enc := expand_prefix prefix ++ data in
  let md := poly_mod (enc ++ zeros 6) in
  map (fun i => Z.land (Z.shiftr md (5 * (5 - i))) 31) [0; 1; 2; 3; 4; 5].

(** bech32.go:280-292, byteShl1: shift the whole array left by one bit.
    The empty array panics in Go; here callers never pass one before the panic is recorded. *)
Fixpoint byte_shl1 (l : list Z) : list Z :=
  match l with
  | [] => []
  | x :: r =>
      match r with
      | [] => [u8 (Z.shiftl x 1)]
      | y :: _ => Z.lor (u8 (Z.shiftl x 1)) (Z.land (Z.shiftr y 7) 1) :: byte_shl1 r
      end
  end.
(** bech32.go:293-297, byteShl5. *)
Definition byte_shl5 (l : list Z) : list Z :=
  byte_shl1 (byte_shl1 (byte_shl1 (byte_shl1 (byte_shl1 l)))).

(** bech32.go:304-308, the loop of extendPayload; [k] is the number of iterations, len*8/5. *)
Fixpoint extend_loop (k : nat) (payload : list Z) : list Z * list Z :=
  match k with
  | O => ([], payload)
  | S k' =>
      let d := Z.land (Z.shiftr (hd 0 payload) 3) 31 in
      let '(ds, p) := extend_loop k' (byte_shl5 payload) in
      (d :: ds, p)
  end.
(** bech32.go:299-313, extendPayload. (The loop body is never run on an empty payload.) *)
Definition extend_payload (payload : list Z) : list Z :=
  let bits := (length payload * 8)%nat in
  let '(ds, p) := extend_loop (bits / 5) payload in
  if (bits mod 5 =? 0)%nat then ds
  else ds ++ [Z.land (Z.shiftr (hd 0 p) 3) 31].

(** or-ing a value into the last byte: ret[length-1] |= v *)
Fixpoint or_last (l : list Z) (v : Z) : res (list Z) :=
  match l with
  | [] => Panic
  | [x] => Ok [Z.lor x v]
  | x :: r => r' <- or_last r v ;; Ok (x :: r')
  end.

(** bech32.go:320-323, the loop of unecxtendPayload over all groups but the last. *)
Fixpoint unextend_loop (ds : list Z) (ret : list Z) : res (list Z) :=
  match ds with
  | [] => Panic                       (* extendedPayload[len-1] with len = 0 *)
  | [d] => or_last ret d
  | d :: ds' => r <- or_last ret d ;; unextend_loop ds' (byte_shl5 r)
  end.
(** bech32.go:315-327, unecxtendPayload. *)
Definition unextend_payload (ds : list Z) : res (list Z) :=
  unextend_loop ds (zeros (length ds * 5 / 8)).

(** alphabet[b : b+1] for every b, with b an int8: panics when negative or >= len(alphabet). *)
Fixpoint lookup_syms (alphabet : list Z) (ds : list Z) : res (list Z) :=
  match ds with
  | [] => Ok []
  | d :: r => x <- (if d <? 128 then idx alphabet d else Panic) ;; t <- lookup_syms alphabet r ;; Ok (x :: t)
  end.

(** bech32.go:329-351, Encode. [payloadPrefix = None] is the nil prefix. *)
Definition bech32_encode (prefix alphabet payload : list Z) (payloadPrefix : option (list Z)) : res (list Z) :=
  let ext := extend_payload payload in
  let ext := match payloadPrefix with None => ext | Some p => p ++ ext end in
  let combined := ext ++ calc_checksum prefix ext in
  s <- lookup_syms alphabet combined ;;
  Ok (prefix ++ [49] ++ s).

(** bech32.go:358-380, the scan of the address characters. State: index, lower, upper,
    hasNumber, prefixSize; returns (lower, upper, prefixSize). *)
Fixpoint scan (s : list Z) (i : Z) (lower upper hasNumber : bool) (prefixSize : Z) : res (bool * bool * Z) :=
  match s with
  | [] => Ok (lower, upper, prefixSize)
  | c :: r =>
      if (97 <=? c) && (c <=? 122) then scan r (i + 1) true upper hasNumber prefixSize
      else if (65 <=? c) && (c <=? 90) then scan r (i + 1) lower true hasNumber prefixSize
      else if (c =? 48) || ((50 <=? c) && (c <=? 57)) then scan r (i + 1) lower upper true prefixSize
      else if c =? 49 then
        if hasNumber || (i =? 0) || negb (prefixSize =? 0) then Err
        else scan r (i + 1) lower upper hasNumber i
      else Err
  end.

(** strings.Split(s, sep)[0] for a one-byte separator *)
Fixpoint before (sep : Z) (s : list Z) : list Z :=
  match s with
  | [] => []
  | c :: r => if c =? sep then [] else c :: before sep r
  end.

(** bech32.go:390-396, translating the characters after the separator. *)
Fixpoint rev_lookup (s : list Z) : res (list Z) :=
  match s with
  | [] => Ok []
  | c :: r =>
      if 127 <? c then Err else
      v <- idx charset_rev c ;;
      if v =? -1 then Err else
      t <- rev_lookup r ;; Ok (v :: t)
  end.

(** bech32.go:353-419, Decode. The alphabet argument is not used by the code. *)
Definition bech32_decode (address : list Z) : res (list Z) :=
  '(lower, upper, ps) <- scan address 0 false false false 0 ;;
  if upper && lower then Err else
  let prefixStr := before 49 address in
  let prefixSize := ps + 1 in
  let valueSize := zlen address - prefixSize in
  if valueSize <? 0 then Panic                        (* make with a negative size *)
  else
  value <- rev_lookup (skipn (Z.to_nat prefixSize) address) ;;
  if negb (verify_checksum prefixStr value) then Err else
  if zlen value <? 6 then Panic                       (* make([]int8, len(value)-6) *)
  else
  ret <- unextend_payload (firstn (length value - 6) value) ;;
  if zlen ret =? 33
  then (* hex.EncodeToString(ret)[1:65], decoded again *)
       h <- slice (hex_encode ret) 1 65 ;; hex_decode h
  else Ok ret.

(** addressEncoder/addressEncoder.go:257-266, the bech32 branch of AddressDecode. *)
Definition address_decode_bech32 (address : list Z) : res (list Z) :=
  ret <- bech32_decode address ;;
  if negb (zlen ret =? 20) && negb (zlen ret =? 32) then Err else Ok ret.

(** addressEncoder/encoderProfile.go:9 and others: the bech32 alphabet. *)
Definition bech32_alphabet : list Z := str "qpzry9x8gf2tvdw0s3jn54khce6mua7l".
