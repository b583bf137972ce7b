(** eosSignature: deterministic nonces (RFC 6979) and canonical compact signatures.
    External: [hmac] owcrypt.Hmac(.., HMAC_SHA256_ALG); [sha] crypto/sha256; [pre] the status of
    owcrypt.PreprocessRandomNum; [ecc_sign key hash nonce] owcrypt.Signature with the stored nonce; [gen_pub]
    owcrypt.GenPubkey; [recover sig65 hash] owcrypt.RecoverPubkey; [success] the status constant. *)
From Coq Require Import ZArith List Bool.
From Verif Require Import Go SignerModel.
Import ListNotations.
Open Scope Z_scope.

(** big.Int.BitLen of a nonnegative number. *)
Definition bit_len (x : Z) : Z := if x =? 0 then 0 else Z.log2 x + 1.
(** eosSignature/randomGenerator.go:11-29 int2octets. *)
Definition int2octets (v : Z) (rolen : Z) : res bytes :=
  let out := big_bytes v in
  if zlen out <? rolen then Ok (zeros (Z.to_nat (rolen - zlen out)) ++ out)
  else if rolen <? zlen out then slice_from out (zlen out - rolen)
  else Ok out.
(** eosSignature/randomGenerator.go:31-44 hashToInt. *)
Definition hash_to_int (hash : bytes) : res Z :=
  let order_bits := bit_len (be_num order_bytes) in
  let order_len := (order_bits + 7) / 8 in
  hash <- (if order_len <? zlen hash then slice_to hash order_len else Ok hash) ;;
  let ret := be_num hash in
  let excess := zlen hash * 8 - order_bits in
  Ok (if 0 <? excess then Z.shiftr ret excess else ret).
(** eosSignature/randomGenerator.go:46-53 bits2octets. *)
Definition bits2octets (input : bytes) (rolen : Z) : res bytes :=
  z1 <- hash_to_int input ;;
  let z2 := z1 - be_num order_bytes in
  if z2 <? 0 then int2octets z1 rolen else int2octets z2 rolen.

Section Eos.
Variable hmac : bytes -> bytes -> bytes.
Variable sha : bytes -> bytes.
Variable pre : bytes -> Z.
Variable ecc_sign : bytes -> bytes -> bytes -> bytes * Z.
Variable gen_pub : bytes -> bytes * Z.
Variable recover : bytes -> bytes -> bytes * Z.
Variable success : Z.

(** eosSignature/randomGenerator.go:95-98, step H2: HMAC outputs are appended until they hold qlen bits; [f] bounds the
    number of rounds (32 is enough as soon as the outputs are not empty). *)
Fixpoint h2_loop (f : nat) (qlen : Z) (k v t : bytes) : bytes * bytes :=
  match f with
  | O => (v, t)
  | S f' => if zlen t * 8 <? qlen then let v := hmac k v in h2_loop f' qlen k v (t ++ v) else (v, t)
  end.
(** eosSignature/randomGenerator.go:90-108, step H, cut after [fuel] rounds (None: still running). *)
Fixpoint h_loop (fuel : nat) (q qlen : Z) (k v : bytes) : option (res bytes) :=
  match fuel with
  | O => None
  | S f =>
      let '(v, t) := h2_loop 32 qlen k v [] in
      match hash_to_int t with
      | Ok secret =>
          if (1 <=? secret) && (secret <? q) then Some (Ok (big_bytes secret))
          else
            let k := hmac k (v ++ [0]) in
            let v := hmac k v in
            h_loop f q qlen k v
      | Err => Some Err
      | Panic => Some Panic
      end
  end.
(** eosSignature/randomGenerator.go:55-109 generateRandomFromNonce. *)
Definition random_from_nonce (fuel : nat) (privateKey hash : bytes) (nonce : Z) : option (res bytes) :=
  let x := be_num privateKey in
  let hash := if 0 <? nonce then sha (hash ++ zeros (Z.to_nat nonce)) else hash in
  let q := be_num order_bytes in
  let qlen := bit_len q in
  let rolen := Z.shiftr (qlen + 7) 3 in
  match (bx <- int2octets x rolen ;; bh <- bits2octets hash rolen ;; Ok (bx ++ bh)) with
  | Ok bx =>
      let v := repeat 1 32 in
      let k := zeros 32 in
      let k := hmac k (v ++ [0] ++ bx) in
      let v := hmac k v in
      let k := hmac k (v ++ [1] ++ bx) in
      let v := hmac k v in
      h_loop fuel q qlen k v
  | Err => Some Err
  | Panic => Some Panic
  end.
(** eosSignature/signature.go:9-20 signRFC6979. *)
Definition sign_rfc6979 (fuel : nat) (privateKey hash : bytes) (nonce : Z) : option (res bytes) :=
  match random_from_nonce fuel privateKey hash nonce with
  | None => None
  | Some r => Some (
      k <- r ;;
      if negb (pre k =? success) then Err else
      let '(sig, ret) := ecc_sign privateKey hash k in
      if negb (ret =? success) then Err else Ok sig)
  end.
(** eosSignature/signature.go:35-66 makeCompact, round i of the loop; n rounds to go. (bytelen < curvelen never holds:
    both are 32.) *)
Fixpoint make_compact_loop (n : nat) (i : Z) (sig publicKey hash : bytes) : res bytes :=
  match n with
  | O => Err
  | S n' =>
      let '(pk, ret) := recover (sig ++ [u8 i]) hash in
      if (ret =? success) && beq pk publicKey then
        r <- slice_to sig 32 ;; s <- slice_from sig 32 ;; Ok ([u8 (u8 (27 + u8 i) + 4)] ++ r ++ s)
      else make_compact_loop n' (i + 1) sig publicKey hash
  end.
Definition make_compact (sig publicKey hash : bytes) : res bytes := make_compact_loop 2 0 sig publicKey hash.
(** eosSignature/signature.go:68-75 isCanonical. *)
Definition is_canonical (d : bytes) : res bool :=
  d1 <- idx d 1 ;;
  let t1 := Z.land d1 0x80 =? 0 in
  a <- (if d1 =? 0 then d2 <- idx d 2 ;; Ok (Z.land d2 0x80 =? 0) else Ok false) ;;
  let t2 := negb a in
  d33 <- idx d 33 ;;
  let t3 := Z.land d33 0x80 =? 0 in
  b <- (if d33 =? 0 then d34 <- idx d 34 ;; Ok (Z.land d34 0x80 =? 0) else Ok false) ;;
  let t4 := negb b in
  Ok (t1 && t2 && t3 && t4).
(** eosSignature/signature.go:77-98 SignCanonical: round i, n rounds to go. *)
Fixpoint sign_canonical_loop (fuel : nat) (n : nat) (i : Z) (privateKey hash : bytes) : option (res bytes) :=
  match n with
  | O => Some Err
  | S n' =>
      match sign_rfc6979 fuel privateKey hash i with
      | None => None
      | Some Err => Some Err
      | Some Panic => Some Panic
      | Some (Ok sig) =>
          let '(publicKey, ret) := gen_pub privateKey in
          if negb (ret =? success) then Some Err else
          match make_compact sig publicKey hash with
          | Err => sign_canonical_loop fuel n' (i + 1) privateKey hash
          | Panic => Some Panic
          | Ok compact =>
              match is_canonical compact with
              | Ok true => Some (Ok compact)
              | Ok false => sign_canonical_loop fuel n' (i + 1) privateKey hash
              | Err => Some Err
              | Panic => Some Panic
              end
          end
      end
  end.
Definition sign_canonical (fuel : nat) (privateKey hash : bytes) : option (res bytes) := sign_canonical_loop fuel 25 0 privateKey hash.
End Eos.
