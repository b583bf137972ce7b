(** Model of the Base58Check functions of the transaction packages.
    [al] is the alphabet; [H] is the checksum hash: double SHA-256 in most packages,
    Keccak-256 of BLAKE2b-256 in virtualeconomyTransaction, double BLAKE-256 in
    hypercashTransaction. *)
From Coq Require Import ZArith List Bool.
From Verif Require Import Go Base58Model.
Import ListNotations.
Open Scope Z_scope.

(** btcTransaction/base58.go:157-162 (same lines in every variant): hash everything but
    the last four bytes, take four bytes of it, compare them one by one with
    the last four bytes. Simplification: the four comparisons are one list comparison.
    Returns the checked body. *)
Definition check_split (H : bytes -> bytes) (ret : bytes) : res bytes :=
  body <- slice ret 0 (zlen ret - 4) ;;
  checksum <- slice (H body) 0 4 ;;
  tail <- slice ret (zlen ret - 4) (zlen ret) ;;
  if beq checksum tail then Ok body else Err.

(** btcTransaction/base58.go:152-167, DecodeCheck (also omni, bitcoincash, bitcoinsv, hc,
    zencash, cxc, vollar, elastos, waykichain, hypercash). *)
Definition decode_check (al : alphabet) (H : bytes -> bytes) (address : list Z) : res (bytes * bytes) :=
  ret <- base58_decode al address ;;
  body <- check_split H ret ;;
  let prefixLen := zlen ret - 4 - 20 in
  p <- slice ret 0 prefixLen ;;
  h <- slice ret prefixLen (zlen ret - 4) ;;
  Ok (p, h).

(** btcTransaction/base58.go:169-174, EncodeCheck. The possible overwriting of the caller's
    prefix backing array by append is not modelled. *)
Definition encode_check (al : alphabet) (H : bytes -> bytes) (prefix hash : bytes) : res (list Z) :=
  let data := prefix ++ hash in
  checksum <- slice (H data) 0 4 ;;
  base58_encode al (data ++ checksum).

(** ontologyTransaction/base58.go:152-166, DecodeCheck with a one-byte prefix (also verge,
    aliencoin, btcLikeTxDriver). *)
Definition decode_check1 (al : alphabet) (H : bytes -> bytes) (address : list Z) : res (Z * bytes) :=
  ret <- base58_decode al address ;;
  body <- check_split H ret ;;
  p <- idx ret 0 ;;
  h <- slice ret 1 (zlen ret - 4) ;;
  Ok (p, h).

(** ontologyTransaction/base58.go:168-173, EncodeCheck; also virtualeconomyTransaction/base58.go:168-173. *)
Definition encode_check1 (al : alphabet) (H : bytes -> bytes) (prefix : Z) (hash : bytes) : res (list Z) :=
  encode_check al H [prefix] hash.

(** virtualeconomyTransaction/base58.go:152-166, DecodeCheck: returns the whole decoded string. *)
Definition decode_check_all (al : alphabet) (H : bytes -> bytes) (address : list Z) : res bytes :=
  ret <- base58_decode al address ;;
  _ <- check_split H ret ;;
  Ok ret.

(** fiiiTransaction/base58.go:164-168, prefix comparison loop, index i. *)
Fixpoint prefix_loop (prefix ret : bytes) (i : Z) : res unit :=
  match prefix with
  | [] => Ok tt
  | p :: prefix' =>
      r <- idx ret i ;;
      if p =? r then prefix_loop prefix' ret (i + 1) else Err
  end.

(** fiiiTransaction/base58.go:152-175, DecodeCheck with an expected prefix. *)
Definition decode_check_prefix (al : alphabet) (H : bytes -> bytes) (address : list Z) (prefix : bytes) : res bytes :=
  ret <- base58_decode al address ;;
  body <- check_split H ret ;;
  _ <- prefix_loop prefix ret 0 ;;
  if zlen ret - zlen prefix - 4 =? 20
  then slice ret (zlen prefix) (zlen ret - 4)
  else Err.

(** elastosTransaction/base58.go:176-197, rippleTransaction/base58.go:152-173,
    waykichainTransaction/base58.go:176-197, GetProgramHashFromAddress.
    [prefixes]: the accepted first bytes ([AddressPrefix], and AddressPrefixTestNet for
    waykichain); [from]: 0 for elastos (the prefix is returned too), 1 for the others. *)
Definition program_hash (al : alphabet) (H : bytes -> bytes) (prefixes : list Z) (from : Z) (address : list Z) : res bytes :=
  ret <- base58_decode al address ;;
  if zlen ret =? 25 then
    body <- check_split H ret ;;
    p <- idx ret 0 ;;
    if existsb (Z.eqb p) prefixes then slice ret from (zlen ret - 4) else Err
  else Err.
