(** Model of the Base58 codec.  /repo/addressEncoder/base58.go; the 19 other copies
    (owkeychain, btcTransaction, omniTransaction, bitcoincashTransaction,
    bitcoinsvTransaction, hcTransaction, zencashTransaction, cxcTransaction,
    vollarTransaction, hypercashTransaction, rippleTransaction,
    elastosTransaction, waykichainTransaction, ontologyTransaction,
    vergeTransaction, aliencoinTransaction, btcLikeTxDriver, fiiiTransaction,
    virtualeconomyTransaction, filenetTransaction, each in base58.go) contain the
    same two functions under the names Encode and Decode. *)
From Coq Require Import String ZArith List Bool.
From Verif Require Import Go.
Import ListNotations.
Open Scope Z_scope.

(** addressEncoder/base58.go:14-18, type Base58Alphabet.
    The flat [unicodeDecodeTable] (rune, index, rune, index, ...) is kept as a list of pairs. *)
Record alphabet := mkAlphabet {
  enc_table : list Z;          (* [58]rune *)
  dec_table : list Z;          (* [256]int, -1 for absent *)
  uni_table : list (Z * Z)
}.

Fixpoint set_nth (l : list Z) (n : nat) (v : Z) : list Z :=
  match l, n with
  | [], _ => []
  | _ :: r, O => v :: r
  | x :: r, S n' => x :: set_nth r n' v
  end.

(** addressEncoder/base58.go:33-41, body of the table filling loop. *)
Fixpoint fill_tables (i : Z) (rs : list Z) (dt : list Z) (ut : list (Z * Z)) : list Z * list (Z * Z) :=
  match rs with
  | [] => (dt, ut)
  | ch :: rs' =>
      if (0 <=? ch) && (ch <? 256)
      then fill_tables (i + 1) rs' (set_nth dt (Z.to_nat ch) i) ut
      else fill_tables (i + 1) rs' dt (ut ++ [(ch, i)])
  end.

(** addressEncoder/base58.go:22-43, NewBase58Alphabet on the rune list of the argument. *)
Definition new_alphabet (rs : list Z) : res alphabet :=
  if zlen rs =? 58 then
    let '(dt, ut) := fill_tables 0 rs (repeat (-1) 256) [] in
    Ok (mkAlphabet rs dt ut)
  else Panic.

(** addressEncoder/base58.go:48-52, counting leading zero bytes: [lead0] of Go.v is this loop. *)

(** addressEncoder/base58.go:59-66, the carry loop of Base58Encode.
    The output array is represented reversed: the head of [out] is
    output[capacity-1].  [used] is outputIdx-outputReverseEnd of the Go loop, so
    "outputIdx > outputReverseEnd" is "used <> 0".  Reaching the end of the list
    with the loop condition still true is Go's index -1, a panic. Returned: the
    new array and the new capacity-1-outputReverseEnd. *)
Fixpoint enc_carry (carry : Z) (used : nat) (out : list Z) : res (list Z * nat) :=
  match out with
  | [] => if (carry =? 0) && (used =? 0)%nat then Ok ([], O) else Panic
  | d :: ds =>
      if (carry =? 0) && (used =? 0)%nat then Ok (out, O)
      else
        let c := u32 (carry + u32 (d * 256)) in
        '(ds', u) <- enc_carry (c / 58) (pred used) ds ;;
        Ok (u8 (c mod 58) :: ds', S u)
  end.

(** addressEncoder/base58.go:58-68, outer loop over the input bytes. *)
Fixpoint enc_loop (input : bytes) (used : nat) (out : list Z) : res (list Z * nat) :=
  match input with
  | [] => Ok (out, used)
  | b :: r => '(out', u) <- enc_carry b used out ;; enc_loop r u out'
  end.

(** UTF-8 encoding of one rune, for string([]rune). *)
Definition utf8_rune (r : Z) : list Z :=
  if (0 <=? r) && (r <? 128) then [r]
  else if (0 <=? r) && (r <? 2048) then [192 + r / 64; 128 + r mod 64]
  else if (r <? 0) || (1114111 <? r) || ((55296 <=? r) && (r <=? 57343)) then [239; 191; 189]
  else if r <? 65536 then [224 + r / 4096; 128 + r / 64 mod 64; 128 + r mod 64]
  else [240 + r / 262144; 128 + r / 4096 mod 64; 128 + r / 64 mod 64; 128 + r mod 64].

(** table lookup of every digit: encodeTable[n] *)
Fixpoint lookup_all (tbl : list Z) (ds : list Z) : res (list Z) :=
  match ds with
  | [] => Ok []
  | d :: r => x <- idx tbl d ;; t <- lookup_all tbl r ;; Ok (x :: t)
  end.

(** addressEncoder/base58.go:46-90, Base58Encode. *)
Definition base58_encode (al : alphabet) (input : bytes) : res (list Z) :=
  let prefixZeroes := lead0 input in
  let capacity := (length input * 138 / 100 + 1)%nat in
  '(out, used) <- enc_loop (strip0 input) 0 (zeros capacity) ;;
  body <- lookup_all (enc_table al) (rev (firstn used out)) ;;
  z <- idx (enc_table al) 0 ;;
  let runes_out := repeat z prefixZeroes ++ body in
  match uni_table al with
  | [] => Ok (map u8 runes_out)
  | _ => Ok (flat_map utf8_rune runes_out)
  end.

(** addressEncoder/base58.go:110-119, value of one rune, -1 when unknown. *)
Fixpoint uni_lookup (ut : list (Z * Z)) (r : Z) : Z :=
  match ut with
  | [] => -1
  | (ch, i) :: ut' => if ch =? r then i else uni_lookup ut' r
  end.
Definition rune_value (al : alphabet) (target : Z) : res Z :=
  if (0 <=? target) && (target <? 256) then idx (dec_table al) target
  else Ok (uni_lookup (uni_table al) target).

(** addressEncoder/base58.go:124-130, the carry loop of Base58Decode, array reversed as above. *)
Fixpoint dec_carry (carry : Z) (used : nat) (out : list Z) : res (list Z * nat) :=
  match out with
  | [] => if (carry =? 0) && (used =? 0)%nat then Ok ([], O) else Panic
  | d :: ds =>
      if (carry =? 0) && (used =? 0)%nat then Ok (out, O)
      else
        let c := carry + 58 * d in
        '(ds', u) <- dec_carry (Z.shiftr c 8) (pred used) ds ;;
        Ok (u8 (Z.land (u32 c) 255) :: ds', S u)
  end.

(** addressEncoder/base58.go:107-131, outer loop over the runes. *)
Fixpoint dec_loop (al : alphabet) (input : list Z) (used : nat) (out : list Z) : res (list Z * nat) :=
  match input with
  | [] => Ok (out, used)
  | r :: rest =>
      carry <- rune_value al r ;;
      if carry =? -1 then Err
      else '(out', u) <- dec_carry carry used out ;; dec_loop al rest u out'
  end.

(** addressEncoder/base58.go:101-105, number of leading zero symbols. *)
Fixpoint lead_sym (z : Z) (l : list Z) : nat :=
  match l with
  | [] => O
  | c :: r => if c =? z then S (lead_sym z r) else O
  end.

(** addressEncoder/base58.go:93-138, Base58Decode, on the rune list of its string argument. *)
Definition base58_decode_runes (al : alphabet) (input : list Z) : res bytes :=
  let capacity := (length input * 733 / 1000 + 1)%nat in
  z <- idx (enc_table al) 0 ;;
  let prefixZeroes := lead_sym z input in
  '(out, used) <- dec_loop al input 0 (zeros capacity) ;;
  Ok (zeros prefixZeroes ++ rev (firstn used out)).

(** addressEncoder/base58.go:93-138, Base58Decode on a Go string. *)
Definition base58_decode (al : alphabet) (s : list Z) : res bytes :=
  base58_decode_runes al (runes s).

(** The alphabets used in the repository, e.g. addressEncoder/encoderProfile.go:5-20
    (btc/ripple style) and btcTransaction/base58.go:16. *)
Definition btc_alphabet_str : list Z :=
  str "123456789ABCDEFGHJKLMNPQRSTUVWXYZabcdefghijkmnopqrstuvwxyz".
Definition ripple_alphabet_str : list Z :=
  str "rpshnaf39wBUDNEGHJKLM4PQRST7VWXYZ2bcdeCg65jkm8oFqi1tuvAxyz".
