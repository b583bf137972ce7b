(** Model of btcTransaction: txStruct.go, txIn.go, txOut.go, txHash.go, txMultiSig.go, transaction.go, txUtils.go,
    txProfile.go. Parameters: [H] double SHA-256, [sha] SHA-256, [h160] RIPEMD-160 of SHA-256, [dec] point
    decompression, [ver] signature verification. Simplifications: nil and empty byte slices are the same value;
    error texts are dropped; slices share no storage. *)
From Coq Require Import String ZArith List Bool.
From Verif Require Import Go Rd Base58Model Base58CheckModel Bech32Model SigModel.
Import ListNotations.
Open Scope Z_scope.

(** base58.go:17, BitcoinAlphabet. *)
Definition bitcoin_rs : list Z := str "123456789ABCDEFGHJKLMNPQRSTUVWXYZabcdefghijkmnopqrstuvwxyz".
Definition bitcoin_al : alphabet := match new_alphabet bitcoin_rs with Ok a => a | _ => mkAlphabet [] [] [] end.

(** txProfile.go:3-8 AddressPrefix. *)
Record addr_prefix := { p_p2pkh : bytes; p_p2wpkh : bytes; p_p2sh : bytes; p_bech32 : list Z }.
(** txProfile.go:10-19. *)
Definition btc_main := {| p_p2pkh := [0x00]; p_p2wpkh := [0x05]; p_p2sh := []; p_bech32 := str "bc" |}.
Definition btc_test := {| p_p2pkh := [0x6F]; p_p2wpkh := [0xC4]; p_p2sh := []; p_bech32 := str "tb" |}.
Definition bch_main := {| p_p2pkh := [0x00]; p_p2wpkh := [0x05]; p_p2sh := []; p_bech32 := str "bc" |}.
Definition bch_test := {| p_p2pkh := [0x6F]; p_p2wpkh := [0xC4]; p_p2sh := []; p_bech32 := str "tb" |}.
Definition ltc_main := {| p_p2pkh := [0x30]; p_p2wpkh := [0x05]; p_p2sh := [0x32]; p_bech32 := str "ltc" |}.
Definition ltc_test := {| p_p2pkh := [0x6F]; p_p2wpkh := [0xC4]; p_p2sh := [0x3A]; p_bech32 := str "tltc" |}.
Definition zec_main := {| p_p2pkh := [0x1C; 0xB8]; p_p2wpkh := [0x1C; 0xBD]; p_p2sh := []; p_bech32 := str "" |}.
Definition zec_test := {| p_p2pkh := [0x1D; 0x25]; p_p2wpkh := [0x1C; 0xBA]; p_p2sh := []; p_bech32 := str "" |}.

(** txIn.go:7-13, the input types; txIn.go:15-23 TxIn. *)
Definition TypeEmpty := 0.
Definition TypeP2PKH := 1.
Definition TypeP2WPKH := 2.
Definition TypeBech32 := 3.
Definition TypeMultiSig := 4.
Record txin := { in_type : Z; in_txid : bytes; in_vout : bytes; in_pub : bytes; in_sig : bytes; in_seq : bytes; in_multi : bytes }.
(** txOut.go:8-11 TxOut; txStruct.go:7-13 Transaction. *)
Record txout := { out_amount : bytes; out_lock : bytes }.
Record tx := { tx_version : bytes; tx_vins : list txin; tx_vouts : list txout; tx_locktime : bytes; tx_witness : bool }.
(** transaction.go:10-27 Vin, Vout, TxUnlock. *)
Record vin := { v_txid : list Z; v_vout : Z }.
Record vout := { v_addr : list Z; v_amount : Z }.
Record unlock := { u_lock : list Z; u_redeem : list Z; u_amount : Z; u_sigtype : Z }.

(** txUtils.go:46-80, little-endian integers. *)
Definition le16 (x : Z) : bytes := le_bytes 2 x.
Definition le32 (x : Z) : bytes := le_bytes 4 x.
Definition le64 (x : Z) : bytes := le_bytes 8 x.
(** txUtils.go:29-39 reverseHexToBytes. *)
Definition reverse_hex (s : list Z) : res bytes :=
  if zlen s mod 2 =? 1 then Err else b <- hex_decode s ;; Ok (rev b).
(** txUtils.go:41-44 reverseBytesToHex (the argument is reversed in place; only the result is modelled). *)
Definition reverse_to_hex (b : bytes) : list Z := hex_encode (rev b).

(** txIn.go:37-54 newTxInForEmptyTrans. *)
Definition new_in (v : vin) : res txin :=
  match reverse_hex (v_txid v) with
  | Ok txid => if zlen txid =? 32 then Ok {| in_type := TypeEmpty; in_txid := txid; in_vout := le32 (v_vout v); in_pub := []; in_sig := []; in_seq := []; in_multi := [] |} else Err
  | Err => Err
  | Panic => Panic
  end.
Definition new_ins (l : list vin) : res (list txin) := if zlen l =? 0 then Err else mapr new_in l.
(** txIn.go:56-64 setSequence. *)
Definition sequence (lockTime : Z) (replaceable : bool) : Z :=
  if replaceable then 0xFFFFFFFD else if negb (lockTime =? 0) then 0xFFFFFFFF - 1 else 0xFFFFFFFF.
Definition set_sequence (lockTime : Z) (replaceable : bool) (i : txin) : txin :=
  {| in_type := in_type i; in_txid := in_txid i; in_vout := in_vout i; in_pub := in_pub i; in_sig := in_sig i;
     in_seq := le32 (sequence lockTime replaceable); in_multi := in_multi i |}.
(** txIn.go:66-107 toBytes. *)
Definition in_bytes (segwitOn : bool) (i : txin) : res bytes :=
  if negb (zlen (in_txid i) =? 32) then Err else
  if negb (zlen (in_vout i) =? 4) then Err else
  body <- (if in_type i =? TypeEmpty then Ok (u8 (zlen (in_pub i)) :: in_pub i)
           else if in_type i =? TypeP2PKH then Ok (u8 (zlen (in_sig i)) :: in_sig i)
           else if in_type i =? TypeP2WPKH then Ok (0x17 :: 0x16 :: in_pub i)
           else if in_type i =? TypeBech32 then Ok [0]
           else if in_type i =? TypeMultiSig then Ok (if segwitOn then in_pub i else in_multi i)
           else Err) ;;
  if negb (zlen (in_seq i) =? 4) then Err else
  Ok (in_txid i ++ in_vout i ++ body ++ in_seq i).
(** txIn.go:110-124 toSegwitBytes. *)
Definition in_segwit_bytes (i : txin) : res bytes :=
  if in_type i =? TypeP2PKH then Ok [0]
  else if (in_type i =? TypeP2WPKH) || (in_type i =? TypeBech32) then Ok (2 :: in_sig i)
  else if in_type i =? TypeMultiSig then Ok (4 :: in_multi i)
  else Err.
(** txIn.go:126-130 setEmpty. *)
Definition set_empty (i : txin) : txin :=
  {| in_type := TypeEmpty; in_txid := in_txid i; in_vout := in_vout i; in_pub := []; in_sig := []; in_seq := in_seq i; in_multi := in_multi i |}.
Definition set_pub (p : bytes) (i : txin) : txin :=
  {| in_type := in_type i; in_txid := in_txid i; in_vout := in_vout i; in_pub := p; in_sig := in_sig i; in_seq := in_seq i; in_multi := in_multi i |}.

(** strings.Index(address, prefix) == 0 *)
Fixpoint is_prefix (p s : list Z) : bool :=
  match p, s with
  | [], _ => true
  | _, [] => false
  | a :: p', b :: s' => (a =? b) && is_prefix p' s'
  end.
(** txOut.go:13-67 newTxOutForEmptyTrans, one output. *)
Definition new_out (H : bytes -> bytes) (ap : addr_prefix) (v : vout) : res txout :=
  let amount := le64 (v_amount v) in
  if is_prefix (p_bech32 ap) (v_addr v) then
    redeem <- bech32_decode (v_addr v) ;;
    Ok {| out_amount := amount; out_lock := 0 :: u8 (zlen redeem) :: redeem |}
  else
    '(prefix, hash) <- decode_check bitcoin_al H (v_addr v) ;;
    if negb (zlen hash =? 20) then Err else
    if beq prefix (p_p2pkh ap) then Ok {| out_amount := amount; out_lock := [0x76; 0xA9; u8 (zlen hash)] ++ hash ++ [0x88; 0xAC] |}
    else if beq prefix (p_p2wpkh ap) || beq prefix (p_p2sh ap) then Ok {| out_amount := amount; out_lock := [0xA9; u8 (zlen hash)] ++ hash ++ [0x87] |}
    else Err.
Definition new_outs (H : bytes -> bytes) (ap : addr_prefix) (l : list vout) : res (list txout) :=
  if zlen l =? 0 then Err else mapr (new_out H ap) l.
(** txOut.go:69-83 toBytes. *)
Definition out_bytes (o : txout) : res bytes :=
  if negb (zlen (out_amount o) =? 8) then Err else
  if zlen (out_lock o) =? 0 then Err else
  Ok (out_amount o ++ u8 (zlen (out_lock o)) :: out_lock o).

(** txStruct.go:15-34 newEmptyTransaction. *)
Definition new_empty_tx (H : bytes -> bytes) (ap : addr_prefix) (vins : list vin) (vouts : list vout) (lockTime : Z) (replaceable : bool) : res tx :=
  ins <- new_ins vins ;;
  let ins := map (set_sequence lockTime replaceable) ins in
  outs <- new_outs H ap vouts ;;
  Ok {| tx_version := le32 2; tx_vins := ins; tx_vouts := outs; tx_locktime := le32 lockTime; tx_witness := false |}.
(** txStruct.go:36-90 encodeToBytes. *)
Definition tx_bytes (segwitOn : bool) (t : tx) : res bytes :=
  if zlen (tx_vins t) =? 0 then Err else
  if zlen (tx_vouts t) =? 0 then Err else
  if negb (zlen (tx_version t) =? 4) then Err else
  if negb (zlen (tx_locktime t) =? 4) then Err else
  ins <- mapr (in_bytes segwitOn) (tx_vins t) ;;
  outs <- mapr out_bytes (tx_vouts t) ;;
  wits <- (if tx_witness t then mapr in_segwit_bytes (tx_vins t) else Ok []) ;;
  Ok (tx_version t ++ (if tx_witness t then [0; 1] else []) ++ u8 (zlen (tx_vins t)) :: concat ins ++
      u8 (zlen (tx_vouts t)) :: concat outs ++ concat wits ++ tx_locktime t).
(** transaction.go:29-42 CreateEmptyRawTransaction. *)
Definition create_empty (H : bytes -> bytes) (vins : list vin) (vouts : list vout) (lockTime : Z) (replaceable : bool) (ap : addr_prefix) : res (list Z) :=
  t <- new_empty_tx H ap vins vouts lockTime replaceable ;;
  b <- tx_bytes false t ;;
  Ok (hex_encode b).

(** txStruct.go:135-225 DecodeRawTransaction, one input. The slices without a length check are panics here; when the
    caller's slice has spare capacity Go reads beyond its length instead and reports the error at the next check. *)
Definition decode_in (witness : bool) (rest : bytes) : res (txin * bytes) :=
  need 32 rest (fun txid rest =>
  need 4 rest (fun vout rest =>
  need1 rest (fun scriptLen rest =>
  let mk ty pub sig multi rest := must 4 rest (fun seq rest =>
    Ok ({| in_type := ty; in_txid := txid; in_vout := vout; in_pub := pub; in_sig := sig; in_seq := seq; in_multi := multi |}, rest)) in
  if scriptLen =? 0 then mk (if witness then TypeBech32 else TypeEmpty) [] [] [] rest
  else if scriptLen =? 0x17 then
    if negb witness then Err else need scriptLen rest (fun s rest => mk TypeP2WPKH s [] [] rest)
  else if scriptLen =? 0x23 then
    if negb witness then Err else need scriptLen rest (fun s rest => mk TypeMultiSig (0x23 :: s) [] [] rest)
  else if scriptLen <=? 0x6C then need scriptLen rest (fun s rest => mk TypeP2PKH [] s [] rest)
  else if witness then Err
  else if scriptLen =? 0xFD then
    if zlen rest <? 2 then Err else
    let n := le_num (firstn 2 rest) in
    if zlen rest <? n then Err else
    must (n + 2) rest (fun s rest => mk TypeMultiSig [] [] (0xFD :: s) rest)
  else if 0xFD <? scriptLen then Err
  else need scriptLen rest (fun s rest => mk TypeMultiSig [] [] s rest)))).
(** txStruct.go:237-264, one output. *)
Definition decode_out (rest : bytes) : res (txout * bytes) :=
  need 8 rest (fun amount rest =>
  need1 rest (fun n rest =>
  if n =? 0 then Err else
  need n rest (fun s rest => Ok ({| out_amount := amount; out_lock := s |}, rest)))).
(** txStruct.go:316-332, the loop over the signatures of a witness multisig; [fuel] bounds the number of rounds by the
    number of unread bytes. Returns what is appended to scriptMulti. *)
Fixpoint decode_wit_sigs (fuel : nat) (rest : bytes) : res (bytes * bytes) :=
  match rest with
  | sigLen :: b :: r =>
      if negb (b =? 0x30) then Ok ([], rest) else
      match fuel with
      | O => Err
      | S f =>
          need sigLen (b :: r) (fun s rest =>
          '(acc, rest) <- decode_wit_sigs f rest ;; Ok (sigLen :: s ++ acc, rest))
      end
  | _ => Err
  end.
Definition with_sig (s : bytes) (i : txin) : txin :=
  {| in_type := in_type i; in_txid := in_txid i; in_vout := in_vout i; in_pub := in_pub i; in_sig := s; in_seq := in_seq i; in_multi := in_multi i |}.
Definition with_multi (s : bytes) (i : txin) : txin :=
  {| in_type := in_type i; in_txid := in_txid i; in_vout := in_vout i; in_pub := in_pub i; in_sig := in_sig i; in_seq := in_seq i; in_multi := s |}.
(** txStruct.go:266-372, the witness of one input. With redeemLen = 0 the byte before the (empty) script is the length
    byte itself, so the final-opcode test fails. *)
Definition decode_wit (segwitOn : bool) (i : txin) (rest : bytes) : res (txin * bytes) :=
  need1 rest (fun b rest =>
  if in_type i =? TypeP2PKH then (if negb (b =? 0) then Err else Ok (i, rest))
  else if (in_type i =? TypeP2WPKH) || (in_type i =? TypeBech32) then
    if negb (b =? 2) then Err else
    need1 rest (fun sigLen _ => need (sigLen + 35) rest (fun s rest => Ok (with_sig s i, rest)))
  else if in_type i =? TypeMultiSig then
    if negb segwitOn then Err else
    if negb (b =? 4) then Err else
    must1 rest (fun z rest =>
    if negb (z =? 0) then Err else
    '(sigs, rest) <- decode_wit_sigs (List.length rest) rest ;;
    need1 rest (fun redeemLen rest =>
    if redeemLen =? 0 then Err else
    need redeemLen rest (fun redeem rest =>
    if negb (last redeem 0 =? 0xAE) then Err else
    Ok (with_multi (0 :: sigs ++ redeemLen :: redeem) i, rest))))
  else Ok (i, b :: rest)).
Fixpoint decode_wits (segwitOn : bool) (l : list txin) (rest : bytes) : res (list txin * bytes) :=
  match l with
  | [] => Ok ([], rest)
  | i :: l' => '(i, rest) <- decode_wit segwitOn i rest ;; '(t, rest) <- decode_wits segwitOn l' rest ;; Ok (i :: t, rest)
  end.
(** txStruct.go:92-385 DecodeRawTransaction (the same text in the packages of FamModel.v); [v] is DefaultTxVersion, which differs between the packages with this code. *)
Definition decode_v (v : Z) (txBytes : bytes) (segwitOn : bool) : res tx :=
  need 4 txBytes (fun version rest =>
  if negb (le_num version =? v) then Err else
  if zlen rest <? 2 then Err else
  '(witness, rest) <- match rest with
                      | 0 :: b :: r => if negb (b =? 1) then Err else Ok (true, r)
                      | _ => Ok (false, rest)
                      end ;;
  need1 rest (fun nin rest =>
  if nin =? 0 then Err else
  '(ins, rest) <- readn (Z.to_nat nin) (decode_in witness) rest ;;
  need1 rest (fun nout rest =>
  if nout =? 0 then Err else
  '(outs, rest) <- readn (Z.to_nat nout) decode_out rest ;;
  '(ins, rest) <- (if witness : bool then decode_wits segwitOn ins rest else Ok (ins, rest)) ;;
  need 4 rest (fun locktime rest =>
  if negb (zlen rest =? 0) then Err else
  Ok {| tx_version := version; tx_vins := ins; tx_vouts := outs; tx_locktime := locktime; tx_witness := witness |})))).

(** txProfile.go:22 DefaultTxVersion. *)
Definition decode_tx : bytes -> bool -> res tx := decode_v 2.

(** txHash.go:82-110 checkScriptType. *)
Definition check_script (lock redeem : list Z) : res (bytes * bytes * Z) :=
  script <- hex_decode lock ;;
  let at_ i := nth i script 0 in
  if (zlen script =? 25) && (at_ 0%nat =? 0x76) && (at_ 1%nat =? 0xA9) && (at_ 2%nat =? 0x14) && (at_ 23%nat =? 0x88) && (at_ 24%nat =? 0xAC) then
    (if zlen redeem =? 0 then Ok (script, [], TypeP2PKH) else Err)
  else if (zlen script =? 23) && (at_ 0%nat =? 0xA9) && (at_ 1%nat =? 0x14) && (at_ 22%nat =? 0x87) then
    r <- hex_decode redeem ;;
    if (zlen r =? 22) && (nth 0 r 0 =? 0) && (nth 1 r 0 =? 0x14) then Ok (script, r, TypeP2WPKH)
    else if (37 <=? zlen r) && (last r 0 =? 0xAE) then Ok (script, r, TypeMultiSig)
    else Err
  else if (zlen script =? 22) && (at_ 0%nat =? 0) && (at_ 1%nat =? 0x14) then
    (if zlen redeem =? 0 then Ok (script, [], TypeBech32) else Err)
  else Err.
(** txHash.go:112-131 calcSegwitSerializationHashes. *)
Definition prevouts (t : tx) : bytes := concat (map (fun i => in_txid i ++ in_vout i) (tx_vins t)).
Definition sequences (t : tx) : bytes := concat (map in_seq (tx_vins t)).
Definition outputs (t : tx) : bytes := concat (map (fun o => out_amount o ++ u8 (zlen (out_lock o)) :: out_lock o) (tx_vouts t)).
(** txHash.go:133-149 genScriptCodeFromRedeemScript. *)
Definition script_code (r : bytes) : res bytes :=
  a <- idx r 0 ;;
  isw <- (if a =? 0 then b <- idx r 1 ;; Ok (b =? 0x14) else Ok false) ;;
  if isw : bool then
    h <- slice_from r 2 ;;
    if negb (zlen h =? 20) then Err else Ok ([0x76; 0xA9; u8 (zlen h)] ++ h ++ [0x88; 0xAC])
  else Ok r.
(** txHash.go:151-183 getSegwitBytesForSig. *)
Definition segwit_bytes (H : bytes -> bytes) (t : tx) (redeem : bytes) (i : txin) (amount : Z) : res bytes :=
  code <- script_code redeem ;;
  if amount =? 0 then Err else
  Ok (tx_version t ++ H (prevouts t) ++ H (sequences t) ++ in_txid i ++ in_vout i ++ u8 (zlen code) :: code ++
      le64 amount ++ in_seq i ++ H (outputs t) ++ tx_locktime t).
(** t.Vins with input [n] changed by [f]. *)
Fixpoint upd {A} (l : list A) (n : nat) (f : A -> A) : list A :=
  match l, n with
  | [], _ => []
  | x :: r, O => f x :: r
  | x :: r, S n' => x :: upd r n' f
  end.
Definition set_vins (l : list txin) (t : tx) : tx :=
  {| tx_version := tx_version t; tx_vins := l; tx_vouts := tx_vouts t; tx_locktime := tx_locktime t; tx_witness := tx_witness t |}.
(** txHash.go:185-244 getBytesForSig. *)
Definition bytes_for_sig (H : bytes -> bytes) (t : tx) (lock redeem : bytes) (ty sigType : Z) (index : nat) (amount : Z) (segwitOn : bool) : res bytes :=
  match nth_error (tx_vins t) index with
  | None => Panic
  | Some i =>
      if negb (sigType =? 1) then Err else
      b <- (if ty =? TypeP2PKH then tx_bytes segwitOn (set_vins (upd (tx_vins t) index (set_pub lock)) t)
            else if ty =? TypeP2WPKH then segwit_bytes H t redeem i amount
            else if ty =? TypeBech32 then segwit_bytes H t lock i amount
            else if segwitOn then segwit_bytes H t redeem i amount
            else tx_bytes segwitOn (set_vins (upd (tx_vins t) index (set_pub redeem)) t)) ;;
      Ok (b ++ le32 1)
  end.

(** txMultiSig.go:20-60 CreateMultiSig: address and redeem script. *)
Fixpoint multi_keys (l : list bytes) : res bytes :=
  match l with
  | [] => Ok []
  | k :: r => if negb (zlen k =? 33) && negb (zlen k =? 65) then Err else t <- multi_keys r ;; Ok (u8 (zlen k) :: k ++ t)
  end.
Definition create_multisig (H sha h160 : bytes -> bytes) (required : Z) (pubkeys : list bytes) (segwitOn : bool) (ap : addr_prefix) : res (list Z * list Z) :=
  if required <? 1 then Err else
  if u8 (zlen pubkeys) <? required then Err else
  if 16 <? zlen pubkeys then Err else
  ks <- multi_keys pubkeys ;;
  let redeem := u8 (0x51 + required - 1) :: ks ++ [u8 (0x51 + u8 (zlen pubkeys) - 1); 0xAE] in
  if 520 <? zlen redeem then Err else
  let hash := if segwitOn then h160 ([0x00; 0x20] ++ sha redeem) else h160 redeem in
  addr <- encode_check bitcoin_al H (p_p2pkh ap) hash ;;
  Ok (addr, hex_encode redeem).
(** txMultiSig.go:76-89, the loop over the keys. *)
Fixpoint multi_detail_keys (fuel : nat) (rest : bytes) : res (list bytes * bytes) :=
  need1 rest (fun b r =>
  if negb (b =? 0x21) then Ok ([], rest) else
  match fuel with
  | O => Err
  | S f => need 33 r (fun k r => '(ks, r) <- multi_detail_keys f r ;; Ok (k :: ks, r))
  end).
(** txMultiSig.go:62-101 getMultiDetails: required number and keys (here as bytes; the code returns their hex). *)
Definition multi_details (redeem : bytes) : res (Z * list bytes) :=
  need1 redeem (fun b rest =>
  let nRequired := u8 (b + 1 - 0x51) in
  if (nRequired <=? 0) || (16 <? nRequired) then Err else
  '(ks, rest) <- multi_detail_keys (List.length rest) rest ;;
  need1 rest (fun b _ =>
  let total := u8 (b + 1 - 0x51) in
  if negb (total =? u8 (zlen ks)) || (total <? nRequired) then Err else
  Ok (nRequired, ks))).

(** txHash.go:10-27 NormalTx, MultiTx, TxHash; SignaturePubkey.go:10-13. *)
Record sigpub := { sp_sig : bytes; sp_pub : bytes }.
Definition no_sigpub := {| sp_sig := []; sp_pub := [] |}.
Record normal_tx := { n_addr : list Z; n_sigtype : Z; n_sp : sigpub }.
Record multi_tx := { m_pub : list Z; m_sigtype : Z; m_sp : sigpub }.
Record txhash := { th_hash : list Z; th_required : Z; th_normal : option normal_tx; th_multi : list multi_tx }.
(** txHash.go:52-80 newTxHash. *)
Definition new_txhash (H : bytes -> bytes) (hash lock redeem : bytes) (ty sigType : Z) (ap : addr_prefix) : res txhash :=
  let normal a := {| th_hash := hex_encode hash; th_required := 0; th_normal := Some {| n_addr := a; n_sigtype := sigType; n_sp := no_sigpub |}; th_multi := [] |} in
  if ty =? TypeP2PKH then h <- slice lock 3 23 ;; a <- encode_check bitcoin_al H (p_p2pkh ap) h ;; Ok (normal a)
  else if ty =? TypeP2WPKH then h <- slice lock 2 22 ;; a <- encode_check bitcoin_al H (p_p2wpkh ap) h ;; Ok (normal a)
  else if ty =? TypeBech32 then h <- slice_from lock 2 ;; a <- bech32_encode (p_bech32 ap) bech32_alphabet h (Some [0]) ;; Ok (normal a)
  else '(n, ks) <- multi_details redeem ;;
       Ok {| th_hash := hex_encode hash; th_required := n; th_normal := None;
             th_multi := map (fun k => {| m_pub := hex_encode k; m_sigtype := sigType; m_sp := no_sigpub |}) ks |}.
(** txHash.go:246-279 getHashesForSig. *)
Fixpoint hashes_loop (H : bytes -> bytes) (t : tx) (segwitOn : bool) (ap : addr_prefix) (i : nat) (us : list unlock) : res (list txhash) :=
  match us with
  | [] => Ok []
  | u :: us' =>
      let t := set_vins (map set_empty (tx_vins t)) t in
      '(lock, redeem, ty) <- check_script (u_lock u) (u_redeem u) ;;
      b <- bytes_for_sig H t lock redeem ty (u_sigtype u) i (u_amount u) segwitOn ;;
      th <- new_txhash H (H b) lock redeem ty (u_sigtype u) ap ;;
      r <- hashes_loop H t segwitOn ap (S i) us' ;;
      Ok (th :: r)
  end.
Definition hashes_for_sig (H : bytes -> bytes) (t : tx) (us : list unlock) (segwitOn : bool) (ap : addr_prefix) : res (list txhash) :=
  if (zlen (tx_vins t) =? 0) || negb (zlen (tx_vins t) =? zlen us) then Err else
  if zlen (tx_vouts t) =? 0 then Err else
  hashes_loop H t segwitOn ap 0 us.
(** transaction.go:44-56 CreateRawTransactionHashForSig. *)
Definition create_hashes (H : bytes -> bytes) (txHex : list Z) (us : list unlock) (segwitOn : bool) (ap : addr_prefix) : res (list txhash) :=
  b <- hex_decode txHex ;; t <- decode_tx b segwitOn ;; hashes_for_sig H t us segwitOn ap.
