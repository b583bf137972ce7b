(** Model of btcTransaction: inserting signatures (transaction.go:67-166) and checking them (transaction.go:168-235). *)
From Coq Require Import String ZArith List Bool.
From Verif Require Import Go Rd SigModel BtcModel.
Import ListNotations.
Open Scope Z_scope.

(** txHash.go:281-358 TxHash.encodeToScript. A nil slice and an empty one are both [[]] here: an entry with empty,
    non-nil slices is refused by the code and skipped by the model. *)
Definition push_redeem (redeem : bytes) (segwitOn : bool) : res bytes :=
  let n := zlen redeem in
  if segwitOn then Ok (u8 n :: redeem) else
  if n <? 0x4C then Ok (u8 n :: redeem) else
  if n <=? 0xFF then Ok (0x4C :: u8 n :: redeem) else
  if n <=? 0xFFFF then Ok (0x4D :: le16 n ++ redeem) else Err.
Definition no_sp (m : multi_tx) : bool := (zlen (sp_sig (m_sp m)) =? 0) && (zlen (sp_pub (m_sp m)) =? 0).
(** The first loop: how many entries are signed. *)
Fixpoint count_signed (l : list multi_tx) : res Z :=
  match l with
  | [] => Ok 0
  | m :: r =>
      if no_sp m then count_signed r else
      if negb (zlen (sp_pub (m_sp m)) =? 33) || negb (zlen (sp_sig (m_sp m)) =? 64) then Err else
      n <- count_signed r ;; Ok (n + 1)
  end.
(** The second loop: the first [n] signatures. *)
Fixpoint sig_scripts (n : nat) (l : list multi_tx) : res bytes :=
  match l, n with
  | [], _ => Ok []
  | m :: r, _ =>
      if zlen (sp_sig (m_sp m)) =? 0 then sig_scripts n r else
      a <- encode_sig (sp_sig (m_sp m)) (m_sigtype m) ;;
      match n with
      | S (S n') => b <- sig_scripts (S n') r ;; Ok (a ++ b)
      | _ => Ok a
      end
  end.
Definition th_script (t : txhash) (redeem : bytes) (segwitOn : bool) : res bytes :=
  if th_required t =? 0 then
    match th_normal t with
    | None => Panic
    | Some n =>
        if negb (zlen (sp_sig (n_sp n)) =? 64) then Err else
        if negb (zlen (sp_pub (n_sp n)) =? 33) then Err else
        encode_script (sp_sig (n_sp n)) (sp_pub (n_sp n)) (n_sigtype n)
    end
  else
    count <- count_signed (th_multi t) ;;
    if u8 count <? th_required t then Err else
    if zlen redeem =? 0 then Err else
    tail <- push_redeem redeem segwitOn ;;
    sigs <- sig_scripts (Z.to_nat (th_required t)) (th_multi t) ;;
    let ret := 0 :: sigs ++ tail in
    if segwitOn then Ok ret else
    if zlen ret <? 0xFD then Ok (u8 (zlen ret) :: ret) else Ok (0xFD :: le16 (zlen ret) ++ ret).

(** txStruct.go:387-402 isSegwit. Here and in the insertion [check] is checkScriptType, which differs between the packages
    with this code. *)
Definition segwit_type (ty : Z) (segwitOn : bool) : bool := (ty =? TypeP2WPKH) || (ty =? TypeBech32) || ((ty =? TypeMultiSig) && segwitOn).
Fixpoint is_segwit_v (check : list Z -> list Z -> res (bytes * bytes * Z)) (us : list unlock) (segwitOn : bool) : res bool :=
  match us with
  | [] => Ok false
  | u :: r => '(_, _, ty) <- check (u_lock u) (u_redeem u) ;; if segwit_type ty segwitOn then Ok true else is_segwit_v check r segwitOn
  end.
Definition is_segwit := is_segwit_v check_script.
(** One round of the loop of InsertSignatureIntoEmptyTransaction. [sha] is SHA-256. *)
Definition filled (i : txin) (ty : Z) (pub sig multi : bytes) : txin :=
  {| in_type := ty; in_txid := in_txid i; in_vout := in_vout i; in_pub := pub; in_sig := sig; in_seq := in_seq i; in_multi := multi |}.
Inductive insert_step := Filled (i : txin) | EmptyResult.
Definition insert_one (check : list Z -> list Z -> res (bytes * bytes * Z)) (sha : bytes -> bytes) (segwit segwitOn : bool) (i : txin) (u : unlock) (th : option txhash) : res insert_step :=
  match check (u_lock u) (u_redeem u) with
  | Panic => Panic
  | Err => Ok EmptyResult
  | Ok (_, redeem, ty) =>
      let script := match th with None => Panic | Some th => th_script th redeem segwitOn end in
      if ty =? TypeP2PKH then s <- script ;; Ok (Filled (filled i ty [] s (in_multi i)))
      else if ty =? TypeP2WPKH then if negb segwitOn then Err else s <- script ;; Ok (Filled (filled i ty redeem s (in_multi i)))
      else if ty =? TypeBech32 then if negb segwitOn then Err else s <- script ;; Ok (Filled (filled i ty [] s (in_multi i)))
      else s <- script ;; Ok (Filled (filled i ty (if segwit then [0x23; 0x22; 0x00; 0x20] ++ sha redeem else []) [] s))
  end.
Fixpoint insert_loop_v (check : list Z -> list Z -> res (bytes * bytes * Z)) (sha : bytes -> bytes) (segwit segwitOn : bool) (ins : list txin) (us : list unlock) (ths : list txhash) : res (option (list txin)) :=
  match ins, us with
  | i :: ins', u :: us' =>
      st <- insert_one check sha segwit segwitOn i u (hd_error ths) ;;
      match st with
      | EmptyResult => Ok None
      | Filled i' => r <- insert_loop_v check sha segwit segwitOn ins' us' (tl ths) ;; Ok (option_map (cons i') r)
      end
  | _, _ => Ok (Some [])
  end.
Definition insert_loop := insert_loop_v check_script.
(** transaction.go:67-166. The empty text with a nil error is [Ok []]. *)
Definition insert_signatures (sha : bytes -> bytes) (txHex : list Z) (ths : list txhash) (us : list unlock) (segwitOn : bool) : res (list Z) :=
  b <- hex_decode txHex ;; t <- decode_tx b segwitOn ;;
  if zlen us =? 0 then Err else
  if zlen ths =? 0 then Err else
  if zlen (tx_vins t) =? 0 then Err else
  if zlen (tx_vouts t) =? 0 then Err else
  if negb (zlen (tx_vins t) =? zlen us) then Err else
  match is_segwit us segwitOn with
  | Panic => Panic
  | Err => Ok []
  | Ok segwit =>
      if segwit && negb segwitOn then Err else
      r <- insert_loop sha segwit segwitOn (tx_vins t) us ths ;;
      match r with
      | None => Ok []
      | Some ins =>
          ret <- tx_bytes segwitOn {| tx_version := tx_version t; tx_vins := ins; tx_vouts := tx_vouts t; tx_locktime := tx_locktime t; tx_witness := segwit |} ;;
          Ok (hex_encode ret)
      end
  end.

(** txMultiSig.go:103-230 decodeMultiBytes. Reading a signature may change the bytes after it (see append_in). *)
Fixpoint multi_sigs (fuel : nat) (rest : bytes) : res (list (bytes * Z) * bytes) :=
  match rest with
  | sigLen :: b :: _ =>
      if negb (b =? 0x30) then Ok ([], rest) else
      match fuel with
      | O => Err
      | S f =>
          need (sigLen + 1) rest (fun s rest =>
          '(sig, st, rest) <- decode_sig s rest ;; '(t, rest) <- multi_sigs f rest ;; Ok ((sig, st) :: t, rest))
      end
  | _ => Err
  end.
(** The last loop; [p] is pscript, [r] the same bytes up to the end of the script (the capacity of pscript). *)
Fixpoint multi_pubs (n : nat) (limit index : Z) (p r : bytes) : res (list bytes) :=
  match n with
  | O => Ok []
  | S n' =>
      if limit <? index + 1 then Err else
      b <- idx p index ;;
      if negb (b =? 0x21) then Err else
      if limit <? index + 1 + 0x21 then Err else
      k <- slice r (index + 1) (index + 1 + 0x21) ;;
      t <- multi_pubs n' limit (index + 1 + 0x21) p r ;;
      Ok (k :: t)
  end.
(** Signature, public key and hash type of the entries. *)
Fixpoint zip_sp (n : nat) (sigs : list (bytes * Z)) (keys : list bytes) : list (sigpub * Z) :=
  match n with
  | O => []
  | S n' => ({| sp_sig := match sigs with (s, _) :: _ => s | [] => [] end; sp_pub := hd [] keys |}, match sigs with (_, t) :: _ => t | [] => 0 end) :: zip_sp n' (tl sigs) (tl keys)
  end.
Definition decode_multi (script : bytes) : res (list (sigpub * Z)) :=
  need1 script (fun b r0 =>
  rest <- (if b =? 0 then Ok script
           else if b =? 0xFD then need 2 r0 (fun l r => if negb (le_num l + 3 =? zlen script) then Err else Ok r)
           else if negb (b + 1 =? zlen script) then Err else Ok r0) ;;
  must1 rest (fun z rest =>
  if negb (z =? 0) then Err else
  '(sigs, rest) <- multi_sigs (List.length rest) rest ;;
  need1 rest (fun c rest =>
  '(redeemLen, rest) <- (if c =? 0x4C then need1 rest (fun l r => Ok (l, r))
                         else if c =? 0x4D then need 2 rest (fun l r => Ok (le_num l, r))
                         else Ok (c, rest)) ;;
  need1 rest (fun q rest =>
  if negb (u8 (q + 1 - 0x51) =? zlen sigs) then Err else
  if negb (zlen rest =? redeemLen - 1) then Err else
  if negb (last (q :: rest) 0 =? 0xAE) then Err else
  if zlen rest <? 2 then Panic else
  let pubkeys := nth (List.length rest - 2) rest 0 + 1 - 0x51 in
  keys <- multi_pubs (Z.to_nat pubkeys) redeemLen 0 (firstn (List.length rest - 2) rest) rest ;;
  Ok (zip_sp (Nat.max (List.length sigs) (Z.to_nat pubkeys)) sigs keys))))).

(** transaction.go:194-217: put the decoded signatures and keys into the hashes. [Err] is "return false". *)
Definition set_normal (th : txhash) (n : normal_tx) (sp : sigpub) (t : Z) : txhash :=
  {| th_hash := th_hash th; th_required := th_required th; th_normal := Some {| n_addr := n_addr n; n_sigtype := t; n_sp := sp |}; th_multi := th_multi th |}.
Fixpoint set_multi (l : list multi_tx) (sps : list (sigpub * Z)) : res (list multi_tx) :=
  match sps, l with
  | [], _ => Ok l
  | _ :: _, [] => Panic
  | (sp, t) :: sps', m :: l' => r <- set_multi l' sps' ;; Ok ({| m_pub := m_pub m; m_sigtype := t; m_sp := sp |} :: r)
  end.
Definition fill_one (i : txin) (th : txhash) : res txhash :=
  if (in_type i =? TypeP2PKH) || (in_type i =? TypeP2WPKH) || (in_type i =? TypeBech32) then
    '(sig, pub, t) <- decode_script (in_sig i) ;;
    match th_normal th with None => Panic | Some n => Ok (set_normal th n {| sp_sig := sig; sp_pub := pub |} t) end
  else if in_type i =? TypeMultiSig then
    sps <- decode_multi (in_multi i) ;;
    ms <- set_multi (th_multi th) sps ;;
    Ok {| th_hash := th_hash th; th_required := th_required th; th_normal := th_normal th; th_multi := ms |}
  else Ok th.
Fixpoint fill_all (ins : list txin) (ths : list txhash) : res (list txhash) :=
  match ins, ths with
  | i :: ins', th :: ths' => a <- fill_one i th ;; r <- fill_all ins' ths' ;; Ok (a :: r)
  | [], _ => Ok ths
  | _ :: _, [] => Panic
  end.
(** transaction.go:219-245: check one hash. [decompress] is PointDecompress (empty when it fails), [ecdsa] whether
    owcrypt.Verify reports success for public key, hash and signature. *)
Fixpoint scan_keys (decompress : bytes -> bytes) (ecdsa : bytes -> bytes -> bytes -> bool) (h sig : bytes) (l : list multi_tx) : res bool :=
  match l with
  | [] => Ok false
  | m :: r => pk <- slice_from (decompress (sp_pub (m_sp m))) 1 ;; if ecdsa pk h sig then Ok true else scan_keys decompress ecdsa h sig r
  end.
Fixpoint scan_sigs (decompress : bytes -> bytes) (ecdsa : bytes -> bytes -> bytes -> bool) (h : bytes) (ms : list multi_tx) (n i count : nat) : res nat :=
  match n with
  | O => Ok count
  | S n' =>
      if (List.length ms <=? count)%nat then scan_sigs decompress ecdsa h ms n' (S i) count else
      match nth_error ms i with
      | None => Panic
      | Some m =>
          ok <- scan_keys decompress ecdsa h (sp_sig (m_sp m)) (skipn count ms) ;;
          scan_sigs decompress ecdsa h ms n' (S i) (if ok : bool then S count else count)
      end
  end.
Definition check_hash (decompress : bytes -> bytes) (ecdsa : bytes -> bytes -> bytes -> bool) (t : txhash) : res bool :=
  let h := match hex_decode (th_hash t) with Ok h => h | _ => [] end in
  if th_required t =? 0 then
    match th_normal t with
    | None => Panic
    | Some n => pk <- slice_from (decompress (sp_pub (n_sp n))) 1 ;; Ok (ecdsa pk h (sp_sig (n_sp n)))
    end
  else
    count <- scan_sigs decompress ecdsa h (th_multi t) (Z.to_nat (th_required t)) 0 0 ;;
    Ok (Z.of_nat count =? th_required t).
Fixpoint check_all (decompress : bytes -> bytes) (ecdsa : bytes -> bytes -> bytes -> bool) (l : list txhash) : res bool :=
  match l with
  | [] => Ok true
  | t :: r => ok <- check_hash decompress ecdsa t ;; if ok : bool then check_all decompress ecdsa r else Ok false
  end.
(** txStruct.go:404-415 cloneEmpty. *)
Definition clone_empty (t : tx) : tx :=
  {| tx_version := tx_version t; tx_vins := map set_empty (tx_vins t); tx_vouts := tx_vouts t; tx_locktime := tx_locktime t; tx_witness := false |}.
(** transaction.go:168-245 VerifyRawTransaction. *)
Definition verify_raw (H : bytes -> bytes) (decompress : bytes -> bytes) (ecdsa : bytes -> bytes -> bytes -> bool) (txHex : list Z) (us : list unlock) (segwitOn : bool) (ap : addr_prefix) : res bool :=
  match (b <- hex_decode txHex ;; t <- decode_tx b segwitOn ;;
         if negb (zlen (tx_vins t) =? zlen us) then Err else
         ths <- hashes_for_sig H (clone_empty t) us segwitOn ap ;;
         fill_all (tx_vins t) ths) with
  | Panic => Panic
  | Err => Ok false
  | Ok ths => check_all decompress ecdsa ths
  end.
