(** Model of waykichainTransaction: variable-length integers, register IDs, the four transaction kinds. *)
From Coq Require Import String ZArith List Bool.
From Verif Require Import Go Base58Model Base58CheckModel SigModel RippleModel.
Import ListNotations.
Open Scope Z_scope.

(** txUtils.go:7-20 sizeofVarInt. [f] bounds the number of iterations; running out is shown to be impossible. *)
Fixpoint sizeof_loop (f : nat) (n : Z) : res Z :=
  match f with
  | O => Panic
  | S f' => if n <=? 0x7f then Ok 1 else r <- sizeof_loop f' (Z.shiftr n 7 - 1) ;; Ok (r + 1)
  end.
(** txUtils.go:33-50, the loop that writes tmp[0], tmp[1], ...: the bytes written; [h] is 0 first and 0x80 then. *)
Fixpoint write_loop (f : nat) (h n : Z) : res bytes :=
  match f with
  | O => Panic
  | S f' =>
      let b := Z.lor (Z.land (u8 n) 0x7f) h in
      if n <=? 0x7f then Ok [b] else r <- write_loop f' 0x80 (Z.shiftr n 7 - 1) ;; Ok (b :: r)
  end.
(** txUtils.go:30-52 int64ToUvarint. tmp has (size*8+6)/7 bytes. *)
Definition uvarint (value : Z) : res bytes :=
  size <- sizeof_loop 64 value ;;
  w <- write_loop 64 0 value ;;
  let cap := (size * 8 + 6) / 7 in
  if cap <? zlen w then Panic else
  t <- slice (w ++ zeros (Z.to_nat (cap - zlen w))) 0 size ;;
  Ok (rev t).

(** txUtils.go:54-57 isRegIdStr, the regular expression ^\s*(\d+)\-(\d+)\s*$. *)
Definition is_space (c : Z) : bool := (c =? 9) || (c =? 10) || (c =? 12) || (c =? 13) || (c =? 32).
Definition is_digit (c : Z) : bool := (48 <=? c) && (c <=? 57).
Fixpoint skip (p : Z -> bool) (s : list Z) : list Z := match s with c :: r => if p c then skip p r else s | [] => [] end.
Definition digits1 (s : list Z) : option (list Z) := match s with c :: r => if is_digit c then Some (skip is_digit r) else None | [] => None end.
Definition is_reg_id (s : list Z) : bool :=
  match digits1 (skip is_space s) with
  | Some (c :: r) => if c =? 45 then match digits1 r with Some t => match skip is_space t with [] => true | _ => false end | None => false end else false
  | _ => false
  end.
(** strings.Split(s, "-") *)
Fixpoint split_dash (s : list Z) : list (list Z) :=
  match s with
  | [] => [[]]
  | c :: r => if c =? 45 then [] :: split_dash r else match split_dash r with h :: t => (c :: h) :: t | [] => [[c]] end
  end.
(** The loop of strconv.ParseUint(s, 10, 64): [None] is a syntax error, [Some] the value or, out of range, 2^64-1. *)
Fixpoint parse_uint (s : list Z) (n : Z) : option Z :=
  match s with
  | [] => Some n
  | c :: r =>
      if negb (is_digit c) then None else
      if 1844674407370955162 <=? n then Some (2 ^ 64 - 1) else
      if 2 ^ 64 <=? n * 10 + (c - 48) then Some (2 ^ 64 - 1) else parse_uint r (n * 10 + (c - 48))
  end.
(** strconv.ParseInt(s, 10, 64), the value when the error is ignored. *)
Definition parse_int (s : list Z) : Z :=
  let '(neg, ds) := match s with
    | c :: r => if c =? 43 then (false, r) else if c =? 45 then (true, r) else (false, s)
    | [] => (false, s) end in
  match ds with
  | [] => 0
  | _ => match parse_uint ds 0 with
         | None => 0
         | Some un => if neg : bool then (if 2 ^ 63 <? un then - 2 ^ 63 else - un) else (if 2 ^ 63 <=? un then 2 ^ 63 - 1 else un)
         end
  end.
(** txStruct.go:33-39 and the same lines in the other constructors: the ID bytes behind their length byte. *)
Fixpoint ids_bytes (ids : list (list Z)) : res bytes :=
  match ids with [] => Ok [] | i :: r => b <- uvarint (parse_int i) ;; t <- ids_bytes r ;; Ok (b ++ t) end.
Definition user_id (s : list Z) : res bytes := b <- ids_bytes (split_dash s) ;; Ok (counted b).

(** base58.go:176-197 with the two address prefixes. *)
Definition dest_id (al : alphabet) (H : bytes -> bytes) (address : list Z) : res bytes :=
  h <- program_hash al H [0x49; 0x87] 1 address ;; Ok (counted h).

(** The arguments of CreateEmptyRawTransactionAndHash. *)
Record request := { q_from : list Z; q_to : list Z; q_app : list Z; q_amount : Z; q_fee : Z; q_height : Z }.
(** txProfile.go: transaction types. *)
Definition t_regacct := 2. Definition t_common := 3. Definition t_contract := 4. Definition t_ucoin := 11.
Section Create.
Variable al : alphabet.
Variable H : bytes -> bytes. (* double SHA-256 *)
(** txStruct.go:22-53 NewCommonTx, 55-68 ToBytes: what follows type and version. *)
Definition common_body (q : request) : res bytes :=
  if q_height q <? 0 then Err else
  h <- uvarint (q_height q) ;;
  if negb (is_reg_id (q_from q)) then Err else
  i <- user_id (q_from q) ;;
  d <- dest_id al H (q_to q) ;;
  f <- uvarint (q_fee q) ;;
  a <- uvarint (q_amount q) ;;
  Ok (h ++ i ++ d ++ f ++ a ++ [0]).
(** txStruct.go:94-114 NewRegisterAccountTx, 116-127 ToBytes. *)
Definition register_body (q : request) : res bytes :=
  if q_height q <? 0 then Err else
  h <- uvarint (q_height q) ;;
  p <- hex_decode (q_from q) ;;
  if negb (zlen p =? 0x21) then Err else
  f <- uvarint (q_fee q) ;;
  Ok (h ++ (0x21 :: p) ++ [0] ++ f).
(** txStruct.go:153-196 NewCallContractTx, 198-209 ToBytes. *)
Definition contract_body (q : request) : res bytes :=
  if q_height q <? 0 then Err else
  h <- uvarint (q_height q) ;;
  if negb (is_reg_id (q_from q)) then Err else
  i <- user_id (q_from q) ;;
  if negb (is_reg_id (q_app q)) then Err else
  p <- user_id (q_app q) ;;
  f <- uvarint (q_fee q) ;;
  a <- uvarint (q_amount q) ;;
  c <- hex_decode (q_to q) ;;
  Ok (h ++ i ++ p ++ f ++ a ++ counted c).
(** txStruct.go:237-277 NewUcoinTransferTx, 279-295 ToBytes. *)
Definition ucoin_body (q : request) : res bytes :=
  if q_height q <? 0 then Err else
  h <- uvarint (q_height q) ;;
  i <- user_id (q_from q) ;;
  f <- uvarint (q_fee q) ;;
  d <- dest_id al H (q_to q) ;;
  if zlen (q_app q) =? 0 then Err else
  a <- uvarint (q_amount q) ;;
  Ok (h ++ i ++ counted (str "WICC") ++ f ++ [1] ++ d ++ counted (q_app q) ++ a ++ [0]).
Definition body_of (t : Z) (q : request) : res bytes :=
  if t =? t_common then common_body q else if t =? t_regacct then register_body q else
  if t =? t_contract then contract_body q else if t =? t_ucoin then ucoin_body q else Err.
(** transaction.go:15-46 CreateEmptyRawTransactionAndHash. ToBytes starts with type and version, GetHash hashes version and
    type (txStruct.go:70-83, 129-140, 211-221, 297-313); version is int64ToUvarint(1). *)
Definition create (t : Z) (q : request) : res (list Z * list Z) :=
  b <- body_of t q ;;
  v <- uvarint 1 ;;
  Ok (hex_encode ([t] ++ v ++ b), hex_encode (H (v ++ [t] ++ b))).
End Create.
(** txStruct.go:315-327 getHashFromEmptyRawTrans. *)
Definition hash_from_empty (H : bytes -> bytes) (emptyTrans : list Z) : res bytes :=
  b <- hex_decode emptyTrans ;;
  t <- idx b 0 ;;
  if negb (t =? t_common) && negb (t =? t_regacct) && negb (t =? t_contract) && negb (t =? t_ucoin) then Err else
  v <- idx b 1 ;;
  if negb (v =? 1) then Err else
  r <- slice_from b 2 ;;
  Ok (H (v :: t :: r)).
(** transaction.go:61-73 VerifyAndCombineRawTransaction; txSignature.go:8-45 SigPub.ToBytes is getSignatureBytes of Ripple. *)
Definition verify_and_combine (H : bytes -> bytes) (decompress : bytes -> bytes) (verify : bytes -> bytes -> bytes -> bool)
  (emptyTrans : list Z) (pub sig : bytes) : res (bool * list Z) :=
  match hash_from_empty H emptyTrans with
  | Panic => Panic
  | Err => Ok (false, [])
  | Ok hash =>
      point <- slice_from (decompress pub) 1 ;;
      if negb (verify point hash sig) then Ok (false, []) else
      s <- signature_bytes sig ;;
      Ok (true, emptyTrans ++ hex_encode s)
  end.
