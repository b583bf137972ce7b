(** Model of /repo/addressEncoder/base32PolyMod/base32PolyMod.go (Bitcoin-Cash addresses).
    An int8 is represented by its bit pattern 0..255, as in Bech32Model.v; the array helpers
    byteShl1/byteShl5 (lines 76-93) are the ones modelled there. *)
From Coq Require Import String ZArith List Bool.
From Verif Require Import Go Bech32Model.
Import ListNotations.
Open Scope Z_scope.

(** base32PolyMod.go:22-24 bitcoincashExpandPrefix; 11-20 charRev is the table charset_rev of Bech32Model.v. *)
Definition bch_expand : list Z := [2; 9; 20; 3; 15; 9; 14; 3; 1; 19; 8; 0].

(** int64(d) for an int8 given by its pattern: sign extension, kept as a Coq integer. *)
Definition i8_to_i64 (v : Z) : Z := if v <? 128 then v else v - 256.

(** base32PolyMod.go:38-55, one iteration. c is an int64 that stays below 2^40 on non-negative digits. *)
Definition cash_step (c d : Z) : Z :=
  let c0 := u8 (Z.shiftr c 35) in
  let c1 := Z.lxor (Z.shiftl (Z.land c 34359738367) 5) (i8_to_i64 d) in   (* 0x07ffffffff *)
  let c2 := xor_if (negb (Z.land c0 1 =? 0)) c1 656907472481 in    (* 0x98f2bc8e61 *)
  let c3 := xor_if (negb (Z.land c0 2 =? 0)) c2 522768456162 in    (* 0x79b76d99e2 *)
  let c4 := xor_if (negb (Z.land c0 4 =? 0)) c3 1044723512260 in   (* 0xf33e5fb3c4 *)
  let c5 := xor_if (negb (Z.land c0 8 =? 0)) c4 748107326120 in    (* 0xae2eabe2a8 *)
  xor_if (negb (Z.land c0 16 =? 0)) c5 130178868336.               (* 0x1e4f43e470 *)
(** base32PolyMod.go:36-58 polyMod. *)
Definition cash_polymod (v : list Z) : Z := Z.lxor (fold_left cash_step v 1) 1.

(** base32PolyMod.go:60-74 calcChecksum. *)
Definition cash_checksum (expanded payload : list Z) : list Z :=
  let md := cash_polymod (expanded ++ payload ++ zeros 8) in
  map (fun i => Z.land (Z.shiftr md (5 * (7 - i))) 31) [0; 1; 2; 3; 4; 5; 6; 7].

(** base32PolyMod.go:95-124 extendPayload: the first byte is shifted left by three bits (wrapping
    in 8 bits), then the bytes are regrouped like in bech32.go. payload[0] panics on an empty payload. *)
Definition cash_extend (payload : list Z) : res (list Z) :=
  match payload with
  | [] => Panic
  | t :: r => Ok (extend_payload (u8 (Z.shiftl t 3) :: r))
  end.

(** base32PolyMod.go:126-128 verifyChecksum. *)
Definition cash_verify (expanded payload : list Z) : bool := cash_polymod (expanded ++ payload) =? 0.

Fixpoint shl1_times (k : nat) (l : list Z) : list Z :=
  match k with O => l | S k' => shl1_times k' (byte_shl1 l) end.
(** base32PolyMod.go:136-139, the loop over all groups but the last two. *)
Fixpoint cash_unextend_loop (ds : list Z) (ret : list Z) : res (list Z) :=
  match ds with
  | [] => Ok ret
  | d :: ds' => r <- or_last ret d ;; cash_unextend_loop ds' (byte_shl5 r)
  end.
(** base32PolyMod.go:130-147 unecxtendPayload; [len] groups. With fewer than two groups the
    index len-2 (or length-1) is out of range. *)
Definition cash_unextend (ds : list Z) : res (list Z) :=
  let n := zlen ds in
  let extraBits := 5 - (n * 5) mod 8 in
  let length := n * 5 / 8 in
  ret <- cash_unextend_loop (firstn (Z.to_nat (n - 2)) ds) (zeros (Z.to_nat length)) ;;
  d2 <- idx ds (n - 2) ;;
  ret <- or_last ret d2 ;;
  let ret := shl1_times (Z.to_nat extraBits) ret in
  d1 <- idx ds (n - 1) ;;
  or_last ret (Z.shiftr d1 (u8 (5 - extraBits))).

(** base32PolyMod.go:149-166 Encode: an all-zero checksum for any other prefix. *)
Definition bitcoincash : list Z := str "bitcoincash".
Definition cash_encode (prefix alphabet payload : list Z) : res (list Z) :=
  ext <- cash_extend payload ;;
  let checksum := if beq prefix bitcoincash then cash_checksum bch_expand ext else zeros 8 in
  s <- lookup_syms alphabet (ext ++ checksum) ;;
  Ok (prefix ++ [58] ++ s).

(** base32PolyMod.go:173-195, the scan of the address characters. *)
Fixpoint cash_scan (s : list Z) (i : Z) (lower upper hasNumber : bool) (prefixSize : Z) : res (bool * bool * Z) :=
  match s with
  | [] => Ok (lower, upper, prefixSize)
  | c :: r =>
      if (97 <=? c) && (c <=? 122) then cash_scan r (i + 1) true upper hasNumber prefixSize
      else if (65 <=? c) && (c <=? 90) then cash_scan r (i + 1) lower true hasNumber prefixSize
      else if (48 <=? c) && (c <=? 57) then cash_scan r (i + 1) lower upper true prefixSize
      else if c =? 58 then
        if hasNumber || (i =? 0) || negb (prefixSize =? 0) then Err
        else cash_scan r (i + 1) lower upper hasNumber i
      else Err
  end.

(** base32PolyMod.go:168-230 Decode. *)
Definition cash_decode (address : list Z) : res (list Z) :=
  '(lower, upper, ps) <- cash_scan address 0 false false false 0 ;;
  if upper && lower then Err else
  let prefixStr := before 58 address in
  let prefixSize := ps + 1 in
  let valueSize := zlen address - prefixSize in
  if valueSize <? 0 then Panic                        (* make with a negative size *)
  else
  value <- rev_lookup (skipn (Z.to_nat prefixSize) address) ;;
  if beq prefixStr bitcoincash && negb (cash_verify bch_expand value) then Err else
  if zlen value <? 8 then Panic                       (* make([]int8, len(value)-8) *)
  else cash_unextend (firstn (length value - 8) value).
