(** Model of btcLikeTxDriver: txStruct.go, txIn.go, txOut.go, witness.go, multiSig.go, transaction.go, utils.go, btc.go.
    Parameters: [H] double SHA-256, [sha] SHA-256, [h160] RIPEMD-160 of SHA-256, [decompress] point decompression (empty
    when it fails), [ecdsa] signature verification, [sign] owcrypt.Signature followed by serilizeS and the compressed
    public key. Simplifications: nil and empty byte slices are the same value; error texts are dropped. What a call
    leaves in the caller's unlock data is part of the result where it matters. *)
From Coq Require Import String ZArith List Bool.
From Verif Require Import Go Rd Base58Model Base58CheckModel Bech32Model SigModel BtcModel.
Import ListNotations.
Open Scope Z_scope.

(** txIn.go:8-13 TxIn; txOut.go:8-11 TxOut; txStruct.go:16-23 Transaction; witness.go:5-8 TxWitness and
    signaturepubkey.go:10-13 SignaturePubkey are both [sigpub]. *)
Record lin := { li_txid : bytes; li_vout : bytes; li_script : bytes; li_seq : bytes }.
Record lout := { lo_amount : bytes; lo_lock : bytes }.
Record ltx := { l_version : bytes; l_vins : list lin; l_vouts : list lout; l_wit : list sigpub; l_locktime : bytes }.
(** transaction.go:19-25 TxUnlock (the address is not used by the code). *)
Record lunlock := { lu_key : bytes; lu_lock : list Z; lu_redeem : list Z; lu_amount : Z }.

(** txIn.go:31-44 newTxInForEmptyTrans and 46-54 setSequence (called from txStruct.go:31-33): one input. *)
Definition like_in (lockTime : Z) (replaceable : bool) (v : vin) : res lin :=
  match reverse_hex (v_txid v) with
  | Ok txid => if zlen txid =? 32 then Ok {| li_txid := txid; li_vout := le32 (v_vout v); li_script := []; li_seq := le32 (sequence lockTime replaceable) |} else Err
  | Err => Err
  | Panic => Panic
  end.
(** bech32.go:158-217 Bech32Decode: as in Bech32Model without the step for 33 bytes. *)
Definition like_bech32 (address : list Z) : res bytes :=
  '(lower, upper, ps) <- scan address 0 false false false 0 ;;
  if upper && lower then Err else
  let prefixStr := before 49 address in
  let prefixSize := ps + 1 in
  let valueSize := zlen address - prefixSize in
  if valueSize <? 0 then Panic else
  value <- rev_lookup (skipn (Z.to_nat prefixSize) address) ;;
  if negb (verify_checksum prefixStr value) then Err else
  if zlen value <? 6 then Panic else
  unextend_payload (firstn (List.length value - 6) value).
(** txOut.go:16-53, one round of newTxOutForEmptyTrans: the outputs appended. The bech32 branch does not end the round. *)
Definition like_out (H : bytes -> bytes) (v : vout) : res (list lout) :=
  let amount := le64 (v_amount v) in
  first <- (if is_prefix (str "tb1") (v_addr v) then
              redeem <- like_bech32 (v_addr v) ;; Ok [{| lo_amount := amount; lo_lock := 0 :: u8 (zlen redeem) :: redeem |}]
            else Ok []) ;;
  '(prefix, hash) <- decode_check1 bitcoin_al H (v_addr v) ;;
  if negb (zlen hash =? 20) then Err else
  lock <- (if prefix =? 0x6F then Ok ([0x76; 0xA9; u8 (zlen hash)] ++ hash ++ [0x88; 0xAC])
           else if prefix =? 0xC4 then Ok ([0xA9; u8 (zlen hash)] ++ hash ++ [0x87])
           else Err) ;;
  Ok (first ++ [{| lo_amount := amount; lo_lock := lock |}]).
(** txStruct.go:25-44 newTransaction. *)
Definition like_new (H : bytes -> bytes) (vins : list vin) (vouts : list vout) (lockTime : Z) (replaceable : bool) : res ltx :=
  ins <- mapr (like_in lockTime replaceable) vins ;;
  outs <- mapr (like_out H) vouts ;;
  Ok {| l_version := le32 2; l_vins := ins; l_vouts := concat outs; l_wit := []; l_locktime := le32 lockTime |}.

(** multiSig.go:48-59 Transaction.isMultiSig. *)
Definition is_multi (t : ltx) : bool :=
  match l_vins t with
  | [i] => negb (zlen (li_script i) =? 0) && (last (li_script i) 0 =? 0xAE)
  | _ => false
  end.
(** multiSig.go:86-90 calcRedeemHash. *)
Definition redeem_hash (sha : bytes -> bytes) (redeem : bytes) : bytes := [0x22; 0x00; 0x20] ++ sha redeem.
(** txStruct.go:63-73 and 107-120, one input; [script] is what is written. *)
Definition like_in_bytes (script : bytes -> bytes) (i : lin) : res bytes :=
  if negb (zlen (li_txid i) =? 32) || negb (zlen (li_vout i) =? 4) then Err else
  let s := script (li_script i) in Ok (li_txid i ++ li_vout i ++ u8 (zlen s) :: s ++ li_seq i).
(** txStruct.go:76-83 and 124-131, one output. *)
Definition like_out_bytes (o : lout) : res bytes :=
  if negb (zlen (lo_amount o) =? 8) then Err else Ok (lo_amount o ++ u8 (zlen (lo_lock o)) :: lo_lock o).
(** txStruct.go:134-141, one witness. *)
Definition like_wit_bytes (w : sigpub) : res bytes :=
  if zlen (sp_sig w) =? 0 then Ok [0] else s <- witness_script (sp_sig w) (sp_pub w) 1 ;; Ok (2 :: s).
(** txStruct.go:86-94, one signature of the multisig branch. *)
Definition like_multi_bytes (w : sigpub) : res bytes :=
  if zlen (sp_sig w) =? 0 then Err else s <- witness_script (sp_sig w) (sp_pub w) 1 ;; slice s 0 (zlen s - 34).
(** txStruct.go:46-147 encodeToBytes. *)
Definition like_bytes (sha : bytes -> bytes) (t : ltx) : res bytes :=
  if zlen (l_vins t) =? 0 then Err else
  if zlen (l_vouts t) =? 0 then Err else
  if is_multi t then
    if zlen (l_wit t) =? 0 then Err else
    ins <- mapr (like_in_bytes (redeem_hash sha)) (l_vins t) ;;
    outs <- mapr like_out_bytes (l_vouts t) ;;
    sigs <- mapr like_multi_bytes (l_wit t) ;;
    let redeem := match l_vins t with i :: _ => li_script i | [] => [] end in
    Ok (l_version t ++ [0; 1] ++ u8 (zlen (l_vins t)) :: concat ins ++ u8 (zlen (l_vouts t)) :: concat outs ++
        [4; 0] ++ concat sigs ++ u8 (zlen redeem) :: redeem ++ l_locktime t)
  else
    ins <- mapr (like_in_bytes (fun s => s)) (l_vins t) ;;
    outs <- mapr like_out_bytes (l_vouts t) ;;
    wits <- mapr like_wit_bytes (l_wit t) ;;
    Ok (l_version t ++ (if zlen (l_wit t) =? 0 then [] else [0; 1]) ++ u8 (zlen (l_vins t)) :: concat ins ++
        u8 (zlen (l_vouts t)) :: concat outs ++ concat wits ++ l_locktime t).
(** transaction.go:32-44 CreateEmptyRawTransaction. *)
Definition like_create (H sha : bytes -> bytes) (vins : list vin) (vouts : list vout) (lockTime : Z) (replaceable : bool) : res (list Z) :=
  t <- like_new H vins vouts lockTime replaceable ;; b <- like_bytes sha t ;; Ok (hex_encode b).

(** txStruct.go:181-218, one input. *)
Definition like_decode_in (rest : bytes) : res (lin * bytes) :=
  need 32 rest (fun txid rest =>
  need 4 rest (fun vout rest =>
  need1 rest (fun n rest =>
  need n rest (fun s rest =>
  need 4 rest (fun seq rest =>
  Ok ({| li_txid := txid; li_vout := vout; li_script := s; li_seq := seq |}, rest)))))).
(** txStruct.go:226-248, one output. *)
Definition like_decode_out (rest : bytes) : res (lout * bytes) :=
  need 8 rest (fun amount rest =>
  need1 rest (fun n rest =>
  need n rest (fun s rest => Ok ({| lo_amount := amount; lo_lock := s |}, rest)))).
(** txStruct.go:251-277, the witness of one input: none when the first byte is neither 0 nor 2, which is then not
    consumed. The error of decodeFromSegwitBytes is dropped and the nil result dereferenced. *)
Definition like_decode_wit (rest : bytes) : res (list sigpub * bytes) :=
  need1 rest (fun b r =>
  if b =? 0 then Ok ([no_sigpub], r)
  else if b =? 2 then
    need1 r (fun n _ => need (n + 35) r (fun s r =>
    match decode_segwit 1 s with
    | Ok (sig, pub) => Ok ([{| sp_sig := sig; sp_pub := pub |}], r)
    | _ => Panic
    end))
  else Ok ([], rest)).
Fixpoint like_decode_wits (n : nat) (rest : bytes) : res (list sigpub * bytes) :=
  match n with
  | O => Ok ([], rest)
  | S n' => '(w, rest) <- like_decode_wit rest ;; '(ws, rest) <- like_decode_wits n' rest ;; Ok (w ++ ws, rest)
  end.
(** txStruct.go:149-290 DecodeRawTransaction. *)
Definition like_decode (txBytes : bytes) : res ltx :=
  need 4 txBytes (fun version rest =>
  if zlen rest <? 2 then Err else
  '(segwit, rest) <- match rest with
                     | a :: b :: r => if a =? 0 then (if negb (b =? 1) then Err else Ok (true, r)) else Ok (false, rest)
                     | _ => Ok (false, rest)
                     end ;;
  need1 rest (fun nin rest =>
  '(ins, rest) <- readn (Z.to_nat nin) like_decode_in rest ;;
  need1 rest (fun nout rest =>
  '(outs, rest) <- readn (Z.to_nat nout) like_decode_out rest ;;
  '(wits, rest) <- (if segwit : bool then like_decode_wits (Z.to_nat nin) rest else Ok ([], rest)) ;;
  need 4 rest (fun locktime rest =>
  if negb (zlen rest =? 0) then Err else
  Ok {| l_version := version; l_vins := ins; l_vouts := outs; l_wit := wits; l_locktime := locktime |})))).

(** txStruct.go:299-309 checkScriptType: the operands of each && are evaluated from left to right. [None] is -1. *)
Fixpoint all_at (script : bytes) (l : list (Z * Z)) : res bool :=
  match l with
  | [] => Ok true
  | (i, v) :: r => x <- idx script i ;; if x =? v then all_at script r else Ok false
  end.
Inductive like_type := LikeP2PKH | LikeP2SH | LikeBech32.
Definition like_script_type (script : bytes) : res (option like_type) :=
  a <- all_at script [(0, 0x76); (1, 0xA9); (2, 0x14); (23, 0x88); (24, 0xAC)] ;;
  if a : bool then Ok (Some LikeP2PKH) else
  b <- all_at script [(0, 0xA9); (1, 0x14); (22, 0x87)] ;;
  if b : bool then Ok (Some LikeP2SH) else
  c <- all_at script [(0, 0); (1, 0x14)] ;;
  Ok (if c : bool then Some LikeBech32 else None).
(** txStruct.go:311-332 calcSegwitHash, 334-357 genScriptCodeFromRedeemScript ([script_code] of BtcModel is the same on
    the decoded bytes) and 359-388 calcSegwitBytesForSig. *)
Definition like_prevouts (t : ltx) : bytes := concat (map (fun i => li_txid i ++ li_vout i) (l_vins t)).
Definition like_sequences (t : ltx) : bytes := concat (map li_seq (l_vins t)).
Definition like_outputs (t : ltx) : bytes := concat (map (fun o => lo_amount o ++ u8 (zlen (lo_lock o)) :: lo_lock o) (l_vouts t)).
Definition like_segwit_bytes (H : bytes -> bytes) (t : ltx) (redeem : list Z) (i : lin) (amount : Z) : res bytes :=
  r <- hex_decode redeem ;;
  code <- script_code r ;;
  Ok (l_version t ++ H (like_prevouts t) ++ H (like_sequences t) ++ li_txid i ++ li_vout i ++ u8 (zlen code) :: code ++
      le64 amount ++ li_seq i ++ H (like_outputs t) ++ l_locktime t).
Definition set_script (s : bytes) (i : lin) : lin := {| li_txid := li_txid i; li_vout := li_vout i; li_script := s; li_seq := li_seq i |}.
Definition set_ins (l : list lin) (t : ltx) : ltx := {| l_version := l_version t; l_vins := l; l_vouts := l_vouts t; l_wit := l_wit t; l_locktime := l_locktime t |}.
Definition set_redeem (r : list Z) (u : lunlock) : lunlock := {| lu_key := lu_key u; lu_lock := lu_lock u; lu_redeem := r; lu_amount := lu_amount u |}.
(** txStruct.go:396-436, one round of getHashesForSig: the hash and the caller's unlock entry afterwards. *)
Definition like_hash (H sha : bytes -> bytes) (t : ltx) (n : nat) (u : lunlock) : res (bytes * lunlock) :=
  lock <- hex_decode (lu_lock u) ;;
  if negb (zlen lock =? 22) && negb (zlen lock =? 23) && negb (zlen lock =? 25) then Err else
  let bare := map (set_script []) (l_vins t) in
  ty <- like_script_type lock ;;
  match nth_error bare n with
  | None => Panic
  | Some i =>
      match ty with
      | Some LikeP2SH => b <- like_segwit_bytes H (set_ins bare t) (lu_redeem u) i (lu_amount u) ;; Ok (H (b ++ le32 1), u)
      | Some LikeBech32 => b <- like_segwit_bytes H (set_ins bare t) (lu_lock u) i (lu_amount u) ;; Ok (H (b ++ le32 1), set_redeem (lu_lock u) u)
      | Some LikeP2PKH => b <- like_bytes sha (set_ins (upd bare n (set_script lock)) t) ;; Ok (H (b ++ le32 1), u)
      | None => Err
      end
  end.
Fixpoint like_hash_loop (H sha : bytes -> bytes) (t : ltx) (n : nat) (us : list lunlock) : res (list bytes * list lunlock) :=
  match us with
  | [] => Ok ([], [])
  | u :: us' => '(h, u) <- like_hash H sha t n u ;; '(hs, us') <- like_hash_loop H sha t (S n) us' ;; Ok (h :: hs, u :: us')
  end.
(** txStruct.go:390-439 getHashesForSig. *)
Definition like_hashes (H sha : bytes -> bytes) (t : ltx) (us : list lunlock) : res (list bytes * list lunlock) :=
  if (zlen (l_vins t) =? 0) || negb (zlen (l_vins t) =? zlen us) then Err else like_hash_loop H sha t 0 us.
(** transaction.go:46-68 CreateRawTransactionHashForSig: the hashes in hex and the caller's unlock data afterwards. *)
Definition like_create_hashes (H sha : bytes -> bytes) (txHex : list Z) (us : list lunlock) : res (list (list Z) * list lunlock) :=
  b <- hex_decode txHex ;; t <- like_decode b ;; '(hs, us) <- like_hashes H sha t us ;; Ok (map hex_encode hs, us).

(** multiSig.go:61-84 isMultiSig (the operands of || are evaluated from left to right; && binds stronger). *)
Definition like_is_multi (lock redeem : list Z) : res bool :=
  if negb (zlen lock =? 46) then Ok false else
  match hex_decode lock with
  | Panic => Panic
  | Err => Ok false
  | Ok l =>
      a <- all_at l [(0, 0xA9); (1, 0x14)] ;;
      c <- (if a : bool then Ok true else all_at l [(22, 0x87)]) ;;
      if negb c then Ok false else
      match hex_decode redeem with
      | Panic => Panic
      | Err => Ok false
      | Ok r => Ok (negb (zlen r =? 0) && (last r 0 =? 0xAE))
      end
  end.
(** transaction.go:184-227, one round of InsertSignatureIntoEmptyTransaction: the input, the witnesses so far (none: no
    witness list yet) and the caller's unlock entry afterwards. [n] is the position. *)
Definition pad_wits (n : nat) (ws : list sigpub) : list sigpub := if zlen ws =? 0 then repeat no_sigpub n else ws.
Definition like_insert_one (n : nat) (i : lin) (u : lunlock) (sp : sigpub) (ws : list sigpub) : res (lin * list sigpub * lunlock) :=
  if negb (zlen (sp_sig sp) =? 64) then Err else
  if negb (zlen (sp_pub sp) =? 33) then Err else
  let u := if (zlen (lu_redeem u) =? 0) && is_prefix (str "0014") (lu_lock u)
           then {| lu_key := lu_key u; lu_lock := str "00"; lu_redeem := lu_lock u; lu_amount := lu_amount u |} else u in
  if zlen (lu_redeem u) =? 0 then
    s <- encode_script (sp_sig sp) (sp_pub sp) 1 ;;
    Ok (set_script s i, if zlen ws =? 0 then ws else ws ++ [no_sigpub], u)
  else
    let ws := pad_wits n ws ++ [sp] in
    if beq (lu_lock u) (str "00") then Ok (set_script [] i, ws, u)
    else r <- hex_decode (lu_redeem u) ;; Ok (set_script (u8 (zlen r) :: r) i, ws, u).
Fixpoint like_insert_loop (n : nat) (ins : list lin) (us : list lunlock) (sps : list sigpub) (ws : list sigpub) : res (list lin * list sigpub * list lunlock) :=
  match ins, us with
  | i :: ins', u :: us' =>
      match sps with
      | [] => Panic
      | sp :: sps' =>
          '(i, ws, u) <- like_insert_one n i u sp ws ;;
          '(ins', ws, us') <- like_insert_loop (S n) ins' us' sps' ws ;;
          Ok (i :: ins', ws, u :: us')
      end
  | _, _ => Ok ([], ws, [])
  end.
(** transaction.go:146-235 InsertSignatureIntoEmptyTransaction: the signed transaction in hex and the caller's unlock data. *)
Definition like_insert (sha : bytes -> bytes) (txHex : list Z) (sps : list sigpub) (us : list lunlock) : res (list Z * list lunlock) :=
  b <- hex_decode txHex ;; t <- like_decode b ;;
  if zlen us =? 0 then Err else
  if zlen sps =? 0 then Err else
  if zlen (l_vins t) =? 0 then Err else
  if zlen (l_vouts t) =? 0 then Err else
  if negb (zlen (l_vins t) =? zlen us) then Err else
  let u0 := match us with u :: _ => u | [] => {| lu_key := []; lu_lock := []; lu_redeem := []; lu_amount := 0 |} end in
  multi <- like_is_multi (lu_lock u0) (lu_redeem u0) ;;
  '(ins, ws, us) <- (if multi : bool then
                       r <- hex_decode (lu_redeem u0) ;; Ok (upd (l_vins t) 0 (set_script r), l_wit t ++ sps, us)
                     else like_insert_loop 0 (l_vins t) us sps (l_wit t)) ;;
  ret <- like_bytes sha {| l_version := l_version t; l_vins := ins; l_vouts := l_vouts t; l_wit := ws; l_locktime := l_locktime t |} ;;
  Ok (hex_encode ret, us).

(** transaction.go:90-124, one round of the loop of SignEmptyRawTransaction: a witness is appended only when there is no
    witness list yet. *)
Definition like_sign_one (n : nat) (i : lin) (u : lunlock) (sp : sigpub) (ws : list sigpub) : res (lin * list sigpub) :=
  lock <- hex_decode (lu_lock u) ;;
  ty <- like_script_type lock ;;
  match ty with
  | Some LikeP2SH => r <- hex_decode (lu_redeem u) ;; Ok (set_script (u8 (zlen r) :: r) i, if zlen ws =? 0 then repeat no_sigpub n ++ [sp] else ws)
  | Some LikeBech32 => Ok (set_script [] i, if zlen ws =? 0 then repeat no_sigpub n ++ [sp] else ws)
  | _ => s <- encode_script (sp_sig sp) (sp_pub sp) 1 ;; Ok (set_script s i, if zlen ws =? 0 then ws else ws ++ [no_sigpub])
  end.
Fixpoint like_sign_loop (n : nat) (ins : list lin) (us : list lunlock) (sps : list sigpub) (ws : list sigpub) : res (list lin * list sigpub) :=
  match ins, us, sps with
  | i :: ins', u :: us', sp :: sps' =>
      '(i, ws) <- like_sign_one n i u sp ws ;;
      '(ins', ws) <- like_sign_loop (S n) ins' us' sps' ws ;;
      Ok (i :: ins', ws)
  | _, _, _ => Ok (ins, ws)
  end.
(** signaturepubkey.go:34-59 calcSignaturePubkey. [sign key hash] is the pair of signature and compressed key, Err when
    owcrypt reports a failure. *)
Fixpoint like_sign_all (sign : bytes -> bytes -> res sigpub) (hs : list bytes) (us : list lunlock) : res (list sigpub) :=
  match hs, us with
  | h :: hs', u :: us' =>
      if negb (zlen (lu_key u) =? 32) then Err else
      if negb (zlen h =? 32) then Err else
      sp <- sign (lu_key u) h ;; r <- like_sign_all sign hs' us' ;; Ok (sp :: r)
  | [], [] => Ok []
  | _, _ => Err
  end.
(** transaction.go:70-131 SignEmptyRawTransaction. *)
Definition like_sign_raw (H sha : bytes -> bytes) (sign : bytes -> bytes -> res sigpub) (txHex : list Z) (us : list lunlock) : res (list Z) :=
  b <- hex_decode txHex ;; t <- like_decode b ;;
  '(hs, us) <- like_hashes H sha t us ;;
  sps <- like_sign_all sign hs us ;;
  '(ins, ws) <- like_sign_loop 0 (l_vins t) us sps (l_wit t) ;;
  ret <- like_bytes sha {| l_version := l_version t; l_vins := ins; l_vouts := l_vouts t; l_wit := ws; l_locktime := l_locktime t |} ;;
  Ok (hex_encode ret).
(** transaction.go:133-144 SignRawTransactionHash. *)
Definition like_sign_hashes (sign : bytes -> bytes -> res sigpub) (hs : list (list Z)) (us : list lunlock) : res (list sigpub) :=
  l <- mapr hex_decode hs ;; like_sign_all sign l us.

(** transaction.go:252-277: signature and key of every input and the unlock data afterwards. *)
Definition like_script_sp (script : bytes) : res sigpub :=
  '(sig, pub, t) <- decode_script script ;; if t =? 1 then Ok {| sp_sig := sig; sp_pub := pub |} else Err.
Definition like_read_one (ws : option sigpub) (i : lin) (u : lunlock) : res (sigpub * lunlock) :=
  match ws with
  | None => Panic
  | Some w =>
      if zlen (sp_sig w) =? 0 then sp <- like_script_sp (li_script i) ;; Ok (sp, u)
      else if is_prefix (str "0014") (lu_lock u) then Ok (w, u)
      else r <- slice_from (li_script i) 1 ;; Ok (w, set_redeem (hex_encode r) u)
  end.
Fixpoint like_read_loop (ws : list sigpub) (ins : list lin) (us : list lunlock) : res (list sigpub * list lunlock) :=
  match ins, us with
  | i :: ins', u :: us' =>
      '(sp, u) <- like_read_one (hd_error ws) i u ;; '(sps, us') <- like_read_loop (tl ws) ins' us' ;; Ok (sp :: sps, u :: us')
  | _, _ => Ok ([], us)
  end.
(** txStruct.go:441-450 verifyHashes. *)
Fixpoint like_check (decompress : bytes -> bytes) (ecdsa : bytes -> bytes -> bytes -> bool) (hs : list bytes) (sps : list sigpub) : res bool :=
  match sps with
  | [] => Ok true
  | sp :: sps' =>
      pk <- slice_from (decompress (sp_pub sp)) 1 ;;
      match hs with
      | [] => Panic
      | h :: hs' => if ecdsa pk h (sp_sig sp) then like_check decompress ecdsa hs' sps' else Ok false
      end
  end.
(** transaction.go:237-287 VerifyRawTransaction. An error is "return false". *)
Definition like_verify (H sha : bytes -> bytes) (decompress : bytes -> bytes) (ecdsa : bytes -> bytes -> bytes -> bool) (txHex : list Z) (us : list lunlock) : res bool :=
  match (b <- hex_decode txHex ;; t <- like_decode b ;;
         if negb (zlen (l_vins t) =? zlen us) then Err else
         '(sps, us) <- (if zlen (l_wit t) =? 0 then sps <- mapr (fun i => like_script_sp (li_script i)) (l_vins t) ;; Ok (sps, us)
                        else like_read_loop (l_wit t) (l_vins t) us) ;;
         '(hs, _) <- like_hashes H sha {| l_version := l_version t; l_vins := l_vins t; l_vouts := l_vouts t; l_wit := []; l_locktime := l_locktime t |} us ;;
         like_check decompress ecdsa hs sps) with
  | Ok b => Ok b
  | Err => Ok false
  | Panic => Panic
  end.

(** multiSig.go:10-46 CreateMultiSig. *)
Definition like_multisig (H sha h160 : bytes -> bytes) (required : Z) (pubkeys : list bytes) : res (list Z * list Z) :=
  if required <? 1 then Err else
  if u8 (zlen pubkeys) <? required then Err else
  if 16 <? zlen pubkeys then Err else
  ks <- multi_keys pubkeys ;;
  let redeem := u8 (0x51 + required - 1) :: ks ++ [u8 (0x51 + u8 (zlen pubkeys) - 1); 0xAE] in
  if 520 <? zlen redeem then Err else
  addr <- encode_check1 bitcoin_al H 0xC4 (h160 ([0x00; 0x20] ++ sha redeem)) ;;
  Ok (addr, hex_encode redeem).
