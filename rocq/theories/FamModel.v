(** Model of the packages derived from btcTransaction: bitcoincashTransaction, bitcoinsvTransaction, omniTransaction,
    hcTransaction, cxcTransaction and zencashTransaction. Their txIn.go, txMultiSig.go, SignaturePubkey.go, base58.go and
    bech32.go are those of btcTransaction (BtcModel.v, BtcVerModel.v); what differs is modelled here. Line numbers are
    those of bitcoincashTransaction unless another package is named. Simplifications: as in BtcModel.v. *)
From Coq Require Import String ZArith List Bool.
From Verif Require Import Go Rd Base58Model Base58CheckModel Bech32Model AddressModel AddressProfiles SigModel BtcModel BtcVerModel OmniModel.
From Verif Require LiteModel.
Import ListNotations.
Open Scope Z_scope.

(** txProfile.go of the packages: address prefixes that btcTransaction does not have. The packages other than
    bitcoincashTransaction and bitcoinsvTransaction have no P2SH prefix; nothing of theirs reads that field here. *)
Definition hc_main := {| p_p2pkh := [0x09; 0x7F]; p_p2wpkh := [0x7F]; p_p2sh := []; p_bech32 := str "Hs" |}. (* hcTransaction/txProfile.go:9 *)
Definition hc_test := {| p_p2pkh := [0x0F; 0x21]; p_p2wpkh := [0x21]; p_p2sh := []; p_bech32 := str "Ts" |}. (* hcTransaction/txProfile.go:10 *)
Definition zen_main := {| p_p2pkh := [0x20; 0x89]; p_p2wpkh := [0x20; 0x96]; p_p2sh := []; p_bech32 := str "bc" |}. (* zencashTransaction/txProfile.go:10 *)

(** ** Creation *)
(** txOut.go:27-46 (and :66-85 without the P2SH prefix): the script for a base58check address. *)
Definition base58_script (H : bytes -> bytes) (ap : addr_prefix) (withP2SH : bool) (address : list Z) : res bytes :=
  '(prefix, hash) <- decode_check bitcoin_al H address ;;
  if negb (zlen hash =? 0x14) then Err else
  let hash := u8 (zlen hash) :: hash in
  let hash := 0xA9 :: hash in
  if beq prefix (p_p2pkh ap) then Ok (0x76 :: hash ++ [0x88; 0xAC])
  else if beq prefix (p_p2wpkh ap) || (withP2SH && beq prefix (p_p2sh ap)) then Ok (hash ++ [0x87])
  else Err.
Definition paying (amount : Z) (script : bytes) : txout := {| out_amount := le64 amount; out_lock := script |}.
(** txOut.go:12-50 newTxOutForEmptyTrans. *)
Definition fork_outs (H : bytes -> bytes) (ap : addr_prefix) (l : list vout) : res (list txout) :=
  if zlen l =? 0 then Err else mapr (fun v => s <- base58_script H ap true (v_addr v) ;; Ok (paying (v_amount v) s)) l.
(** txOut.go:52-91 newOmniTxOutForEmptyTrans. *)
Definition fork_omni_outs (H : bytes -> bytes) (ap : addr_prefix) (o : omni) (l : list vout) : res (list txout) :=
  if zlen l =? 0 then Err else
  outs <- mapr (fun v => s <- base58_script H ap false (v_addr v) ;; Ok (paying (v_amount v) s)) l ;;
  p <- get_payload bitcoin_al H o ;;
  Ok (outs ++ [paying 0 p]).
(** omniTransaction/txOut.go:25-60, hcTransaction/txOut.go:25-60, cxcTransaction/txOut.go:25-60: the outputs of one address.
    After the bech32 output the loop goes on (there is no continue) and the address is read again as base58check. *)
Definition both_outs (H : bytes -> bytes) (ap : addr_prefix) (tail : bytes) (v : vout) : res (list txout) :=
  first <- (if is_prefix (p_bech32 ap) (v_addr v) then
              redeem <- bech32_decode (v_addr v) ;; Ok [paying (v_amount v) (0 :: u8 (zlen redeem) :: redeem)]
            else Ok []) ;;
  s <- base58_script H ap false (v_addr v) ;;
  Ok (first ++ [paying (v_amount v) (s ++ tail)]).
Definition plain_outs (H : bytes -> bytes) (ap : addr_prefix) (l : list vout) : res (list txout) :=
  if zlen l =? 0 then Err else o <- mapr (both_outs H ap []) l ;; Ok (concat o).
(** omniTransaction/txOut.go:13-67. *)
Definition omni_outs (H : bytes -> bytes) (ap : addr_prefix) (o : omni) (l : list vout) : res (list txout) :=
  outs <- plain_outs H ap l ;; p <- get_payload bitcoin_al H o ;; Ok (outs ++ [paying 0 p]).
(** zencashTransaction/txOut.go:14-90: the block hash and height are appended to every base58 script, not to a bech32 one. *)
Definition height_bytes (height : Z) : bytes := rev (strip0 (be_bytes 8 height)).
Definition zen_tail (hash : bytes) (height : Z) : bytes :=
  0x20 :: hash ++ u8 (zlen (height_bytes height)) :: height_bytes height ++ [0xB4].
Definition zen_outs (H : bytes -> bytes) (ap : addr_prefix) (blockHash : list Z) (height : Z) (l : list vout) : res (list txout) :=
  if zlen l =? 0 then Err else
  bh <- reverse_hex blockHash ;;
  o <- mapr (both_outs H ap (zen_tail bh height)) l ;; Ok (concat o).
(** cxcTransaction/transaction.go:29-33 AssetTransfer. *)
Record asset := { a_txid : list Z; a_addr : list Z; a_amount : Z }.
(** cxcTransaction/txAsset.go:8-20 getTransferPayload: "spkq", the reversed id, the amount. *)
Definition asset_payload (a : asset) : res bytes :=
  id <- reverse_hex (a_txid a) ;; Ok (str "spkq" ++ id ++ le64 (a_amount a)).
(** cxcTransaction/txAsset.go:22-82 getTransferAssetWithPayload, one transfer. *)
Definition asset_outs (H : bytes -> bytes) (ap : addr_prefix) (a : asset) : res (list txout) :=
  first <- (if is_prefix (p_bech32 ap) (a_addr a) then
              redeem <- bech32_decode (a_addr a) ;; p <- asset_payload a ;;
              Ok [paying 0 ((0 :: u8 (zlen redeem) :: redeem) ++ u8 (zlen p) :: p ++ [0x75])]
            else Ok []) ;;
  s <- base58_script H ap false (a_addr a) ;;
  p <- asset_payload a ;;
  Ok (first ++ [paying 0 (s ++ u8 (zlen p) :: p ++ [0x75])]).
(** cxcTransaction/txStruct.go:51-60: asset outputs, then the change. *)
Definition cxc_asset_outs (H : bytes -> bytes) (ap : addr_prefix) (l : list asset) (change : vout) : res (list txout) :=
  o <- mapr (asset_outs H ap) l ;; c <- plain_outs H ap [change] ;; Ok (concat o ++ c).
(** txStruct.go:15-56, transaction.go:30-57: CreateEmptyRawTransaction for given outputs. The outputs are made after the
    inputs; both report the same kind of error. *)
Definition create_v (version : Z) (outs : res (list txout)) (vins : list vin) (lockTime : Z) (replaceable : bool) : res (list Z) :=
  ins <- new_ins vins ;;
  let ins := map (set_sequence lockTime replaceable) ins in
  outs <- outs ;;
  b <- tx_bytes false {| tx_version := le32 version; tx_vins := ins; tx_vouts := outs; tx_locktime := le32 lockTime; tx_witness := false |} ;;
  Ok (hex_encode b).
(** DefaultTxVersion: bitcoincashTransaction/txProfile.go:22, bitcoinsvTransaction/txProfile.go:22, omniTransaction/txProfile.go:58,
    hcTransaction/txProfile.go:15, cxcTransaction/txProfile.go:21, zencashTransaction/txProfile.go:14. *)
Definition create_fork (H : bytes -> bytes) (vins : list vin) (vouts : list vout) (lt : Z) (r : bool) (ap : addr_prefix) := create_v 1 (fork_outs H ap vouts) vins lt r.
Definition create_fork_omni (H : bytes -> bytes) (vins : list vin) (vouts : list vout) (o : omni) (lt : Z) (r : bool) (ap : addr_prefix) := create_v 1 (fork_omni_outs H ap o vouts) vins lt r.
Definition create_omni (H : bytes -> bytes) (vins : list vin) (vouts : list vout) (o : omni) (lt : Z) (r : bool) (ap : addr_prefix) := create_v 2 (omni_outs H ap o vouts) vins lt r.
Definition create_hc (H : bytes -> bytes) (vins : list vin) (vouts : list vout) (lt : Z) (r : bool) (ap : addr_prefix) := create_v 2 (plain_outs H ap vouts) vins lt r.
Definition create_cxc (H : bytes -> bytes) (vins : list vin) (vouts : list vout) (lt : Z) (r : bool) (ap : addr_prefix) := create_v 1 (plain_outs H ap vouts) vins lt r.
Definition create_cxc_asset (H : bytes -> bytes) (vins : list vin) (tos : list asset) (change : vout) (lt : Z) (r : bool) (ap : addr_prefix) := create_v 1 (cxc_asset_outs H ap tos change) vins lt r.
Definition create_zen (H : bytes -> bytes) (vins : list vin) (vouts : list vout) (lt : Z) (r : bool) (ap : addr_prefix) (blockHash : list Z) (height : Z) := create_v 1 (zen_outs H ap blockHash height vouts) vins lt r.

(** ** Hashes *)
(** txHash.go:78-106 checkScriptType: a redeem script beside a key-hash script is ignored. *)
Definition fork_check (lock redeem : list Z) : res (bytes * bytes * Z) :=
  script <- hex_decode lock ;;
  let at_ i := nth i script 0 in
  if (zlen script =? 25) && (at_ 0%nat =? 0x76) && (at_ 1%nat =? 0xA9) && (at_ 2%nat =? 0x14) && (at_ 23%nat =? 0x88) && (at_ 24%nat =? 0xAC) then
    Ok (script, [], TypeP2PKH)
  else if (zlen script =? 23) && (at_ 0%nat =? 0xA9) && (at_ 1%nat =? 0x14) && (at_ 22%nat =? 0x87) then
    r <- hex_decode redeem ;;
    if (zlen r =? 22) && (nth 0 r 0 =? 0) && (nth 1 r 0 =? 0x14) then Ok (script, r, TypeP2WPKH)
    else if (37 <=? zlen r) && (last r 0 =? 0xAE) then Ok (script, r, TypeMultiSig)
    else Err
  else if (zlen script =? 22) && (at_ 0%nat =? 0) && (at_ 1%nat =? 0x14) then
    (if zlen redeem =? 0 then Ok (script, [], TypeBech32) else Err)
  else Err.
(** cxcTransaction/txHash.go:81-109 checkScriptType: also scripts 30 bytes longer, whose last 30 bytes are not looked at. *)
Definition cxc_check (lock redeem : list Z) : res (bytes * bytes * Z) :=
  script <- hex_decode lock ;;
  let at_ i := nth i script 0 in
  if ((zlen script =? 25) || (zlen script =? 55)) && (at_ 0%nat =? 0x76) && (at_ 1%nat =? 0xA9) && (at_ 2%nat =? 0x14) && (at_ 23%nat =? 0x88) && (at_ 24%nat =? 0xAC) then
    (if zlen redeem =? 0 then Ok (script, [], TypeP2PKH) else Err)
  else if ((zlen script =? 23) || (zlen script =? 53)) && (at_ 0%nat =? 0xA9) && (at_ 1%nat =? 0x14) && (at_ 22%nat =? 0x87) then
    r <- hex_decode redeem ;;
    if (zlen r =? 22) && (nth 0 r 0 =? 0) && (nth 1 r 0 =? 0x14) then Ok (script, r, TypeP2WPKH)
    else if (37 <=? zlen r) && (last r 0 =? 0xAE) then Ok (script, r, TypeMultiSig)
    else Err
  else if (zlen script =? 22) && (at_ 0%nat =? 0) && (at_ 1%nat =? 0x14) then
    (if zlen redeem =? 0 then Ok (script, [], TypeBech32) else Err)
  else Err.
(** zencashTransaction/txHash.go:259-272, transaction.go:97-112: every input is a key-hash input; hex.DecodeString's error
    is dropped and the bytes before the error are used. *)
Definition zen_check (lock redeem : list Z) : res (bytes * bytes * Z) := Ok (LiteModel.hex_prefix lock, [], TypeP2PKH).

(** What differs in hashing, inserting and checking: version and hash type (txProfile.go), the script check, whether
    key-hash inputs are hashed like witness inputs, the address shown for a key hash, whether witness outputs have one. *)
Record coin := {
  k_version : Z;
  k_all : Z;
  k_check : list Z -> list Z -> res (bytes * bytes * Z);
  k_fork : bool;
  k_address : (bytes -> bytes) -> addr_prefix -> bytes -> res (list Z);
  k_bech32 : bool }.
Definition base58_address (H : bytes -> bytes) (ap : addr_prefix) (h : bytes) : res (list Z) := encode_check bitcoin_al H (p_p2pkh ap) h.
(** txHash.go:61: the cash address of key type 0, on the main net whatever prefix the caller gives. *)
Definition cash_address (H : bytes -> bytes) (ap : addr_prefix) (h : bytes) : res (list Z) := address_encode (fun _ b => b) (0 :: h) BCH_mainnetAddressCash.

(** The packages. bitcoincashTransaction and bitcoinsvTransaction/txProfile.go:22, 35, txHash.go:53-106; cxcTransaction/txProfile.go:21, 35;
    zencashTransaction/txProfile.go:14, 27. omniTransaction and hcTransaction have the values of btcTransaction: their hashing,
    insertion and check are BtcModel.create_hashes, BtcVerModel.insert_signatures and BtcVerModel.verify_raw. *)
Definition bch := {| k_version := 1; k_all := 0x41; k_check := fork_check; k_fork := true; k_address := cash_address; k_bech32 := false |}.
Definition bsv := {| k_version := 1; k_all := 0x41; k_check := fork_check; k_fork := true; k_address := base58_address; k_bech32 := false |}.
Definition cxc := {| k_version := 1; k_all := 1; k_check := cxc_check; k_fork := false; k_address := base58_address; k_bech32 := true |}.
Definition zen := {| k_version := 1; k_all := 1; k_check := zen_check; k_fork := false; k_address := base58_address; k_bech32 := true |}.
(** txHash.go:181-240 getBytesForSig (for [k_fork] = false, btcTransaction/txHash.go:185-244). *)
Definition bytes_for_sig_v (K : coin) (H : bytes -> bytes) (t : tx) (lock redeem : bytes) (ty sigType : Z) (index : nat) (amount : Z) (segwitOn : bool) : res bytes :=
  match nth_error (tx_vins t) index with
  | None => Panic
  | Some i =>
      if negb (sigType =? k_all K) then Err else
      b <- (if ty =? TypeP2PKH then
              if k_fork K then segwit_bytes H t lock i amount else tx_bytes segwitOn (set_vins (upd (tx_vins t) index (set_pub lock)) t)
            else if ty =? TypeP2WPKH then segwit_bytes H t (if k_fork K then lock else redeem) i amount
            else if ty =? TypeBech32 then segwit_bytes H t lock i amount
            else if segwitOn then segwit_bytes H t redeem i amount
            else tx_bytes segwitOn (set_vins (upd (tx_vins t) index (set_pub redeem)) t)) ;;
      Ok (b ++ le32 (k_all K))
  end.
(** txHash.go:53-76 newTxHash; without [k_bech32] it returns nil for a witness script and the caller dereferences it. *)
Definition new_txhash_v (K : coin) (H : bytes -> bytes) (hash lock redeem : bytes) (ty sigType : Z) (ap : addr_prefix) : res txhash :=
  let normal a := {| th_hash := hex_encode hash; th_required := 0; th_normal := Some {| n_addr := a; n_sigtype := sigType; n_sp := no_sigpub |}; th_multi := [] |} in
  if ty =? TypeP2PKH then h <- slice lock 3 23 ;; a <- k_address K H ap h ;; Ok (normal a)
  else if ty =? TypeP2WPKH then h <- slice lock 2 22 ;; a <- encode_check bitcoin_al H (p_p2wpkh ap) h ;; Ok (normal a)
  else if ty =? TypeBech32 then
    if k_bech32 K then h <- slice_from lock 2 ;; a <- bech32_encode (p_bech32 ap) bech32_alphabet h (Some [0]) ;; Ok (normal a) else Panic
  else '(n, ks) <- multi_details redeem ;;
       Ok {| th_hash := hex_encode hash; th_required := n; th_normal := None;
             th_multi := map (fun k => {| m_pub := hex_encode k; m_sigtype := sigType; m_sp := no_sigpub |}) ks |}.
(** txHash.go:242-275 getHashesForSig; zencashTransaction/txHash.go:246-280. *)
Fixpoint hashes_loop_v (K : coin) (H : bytes -> bytes) (t : tx) (segwitOn : bool) (ap : addr_prefix) (i : nat) (us : list unlock) : res (list txhash) :=
  match us with
  | [] => Ok []
  | u :: us' =>
      let t := set_vins (map set_empty (tx_vins t)) t in
      '(lock, redeem, ty) <- k_check K (u_lock u) (u_redeem u) ;;
      b <- bytes_for_sig_v K H t lock redeem ty (u_sigtype u) i (u_amount u) segwitOn ;;
      th <- new_txhash_v K H (H b) lock redeem ty (u_sigtype u) ap ;;
      r <- hashes_loop_v K H t segwitOn ap (S i) us' ;;
      Ok (th :: r)
  end.
Definition hashes_for_sig_v (K : coin) (H : bytes -> bytes) (t : tx) (us : list unlock) (segwitOn : bool) (ap : addr_prefix) : res (list txhash) :=
  if (zlen (tx_vins t) =? 0) || negb (zlen (tx_vins t) =? zlen us) then Err else
  if zlen (tx_vouts t) =? 0 then Err else
  hashes_loop_v K H t segwitOn ap 0 us.
(** transaction.go:58-70 CreateRawTransactionHashForSig. *)
Definition create_hashes_v (K : coin) (H : bytes -> bytes) (txHex : list Z) (us : list unlock) (segwitOn : bool) (ap : addr_prefix) : res (list txhash) :=
  b <- hex_decode txHex ;; t <- decode_v (k_version K) b segwitOn ;; hashes_for_sig_v K H t us segwitOn ap.

(** ** Signatures *)
(** transaction.go:81-180 InsertSignatureIntoEmptyTransaction; zencashTransaction/transaction.go:66-121, where every input is
    a key-hash input and none is a witness input. *)
Definition insert_signatures_v (K : coin) (sha : bytes -> bytes) (txHex : list Z) (ths : list txhash) (us : list unlock) (segwitOn : bool) : res (list Z) :=
  b <- hex_decode txHex ;; t <- decode_v (k_version K) b segwitOn ;;
  if zlen us =? 0 then Err else
  if zlen ths =? 0 then Err else
  if zlen (tx_vins t) =? 0 then Err else
  if zlen (tx_vouts t) =? 0 then Err else
  if negb (zlen (tx_vins t) =? zlen us) then Err else
  match is_segwit_v (k_check K) us segwitOn with
  | Panic => Panic
  | Err => Ok []
  | Ok segwit =>
      if segwit && negb segwitOn then Err else
      r <- insert_loop_v (k_check K) sha segwit segwitOn (tx_vins t) us ths ;;
      match r with
      | None => Ok []
      | Some ins =>
          ret <- tx_bytes segwitOn {| tx_version := tx_version t; tx_vins := ins; tx_vouts := tx_vouts t; tx_locktime := tx_locktime t; tx_witness := segwit |} ;;
          Ok (hex_encode ret)
      end
  end.
(** transaction.go:182-249 VerifyRawTransaction. *)
Definition verify_raw_v (K : coin) (H : bytes -> bytes) (decompress : bytes -> bytes) (ecdsa : bytes -> bytes -> bytes -> bool) (txHex : list Z) (us : list unlock) (segwitOn : bool) (ap : addr_prefix) : res bool :=
  match (b <- hex_decode txHex ;; t <- decode_v (k_version K) b segwitOn ;;
         if negb (zlen (tx_vins t) =? zlen us) then Err else
         ths <- hashes_for_sig_v K H (clone_empty t) us segwitOn ap ;;
         fill_all (tx_vins t) ths) with
  | Panic => Panic
  | Err => Ok false
  | Ok ths => check_all decompress ecdsa ths
  end.
