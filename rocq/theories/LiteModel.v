(** Model of aliencoinTransaction, vergeTransaction and vollarTransaction. The three packages have the same transaction
    shape with different fixed parts; [coin] says how many bytes these have, so that one model serves the three. [H] is
    the double SHA-256, [al] the base58 alphabet, [decompress] and [verify] owcrypt's PointDecompress and Verify, [sp] the
    ToBytes method of the package's SigPub (SigModel: alien_sigpub, verge_sigpub). *)
From Coq Require Import ZArith List Bool.
From Verif Require Import Go Rd Base58Model Base58CheckModel CodecModel SigModel BtcModel HyperModel.
Import ListNotations.
Open Scope Z_scope.

(** Lengths of: what precedes the inputs (aliencoin version; verge version and time; vollar version and flag), what
    stands between amount and script of an output (vollar flag), what follows the script (vollar HashData), and what
    follows the outputs (aliencoin, verge lock time). *)
Record coin := { c_head : Z; c_mid : Z; c_tail : Z; c_trail : Z }.
Definition aliencoin : coin := {| c_head := 4; c_mid := 0; c_tail := 0; c_trail := 4 |}.
Definition verge : coin := {| c_head := 8; c_mid := 0; c_tail := 0; c_trail := 4 |}.
Definition vollar : coin := {| c_head := 5; c_mid := 1; c_tail := 32; c_trail := 0 |}.

(** aliencoinTransaction/transaction.go:10-19 Vin, Vout (the same in the three packages). *)
Record lvin := { w_txid : list Z; w_vout : Z; w_lock : list Z }.
Record lvout := { w_address : list Z; w_amount : Z }.
(** aliencoinTransaction/txSigPub.go SigPub. *)
Record lsig := { g_pubkey : bytes; g_signature : bytes }.
(** aliencoinTransaction/txIn.go:9-15 TxIn, txOut.go TxOut, vollarTransaction/txOut.go TxOut, txStruct.go TxStruct. *)
Record lin := { n_txid : bytes; n_vout : bytes; n_sig : option lsig; n_seq : bytes; n_lock : bytes }.
Record lout := { q_amount : bytes; q_mid : bytes; q_script : bytes; q_tail : bytes }.
Record ltx := { l_head : bytes; l_ins : list lin; l_outs : list lout; l_trail : bytes }.

(** aliencoinTransaction/txIn.go:17-37 NewTxIn (the same in the three packages). *)
Definition new_lin (i : lvin) : res lin :=
  match reverse_hex (w_txid i) with
  | Ok txid =>
      match hex_decode (w_lock i) with
      | Ok lock => Ok {| n_txid := txid; n_vout := put_le 4 (w_vout i); n_sig := None; n_seq := [0xff; 0xff; 0xff; 0xff]; n_lock := u8 (zlen lock) :: lock |}
      | _ => Err
      end
  | _ => Err
  end.
(** aliencoinTransaction/txOut.go:17-39 NewTxOut; prefixes 17 / 30 (aliencoin), 1e / 21 (verge). *)
Definition new_lout (p2pkh p2sh : Z) (al : alphabet) (H : bytes -> bytes) (o : lvout) : res lout :=
  '(prefix, h) <- decode_check1 al H (w_address o) ;;
  if prefix =? p2pkh then Ok {| q_amount := put_le 8 (w_amount o); q_mid := []; q_script := [0x19; 0x76; 0xa9; 0x14] ++ h ++ [0x88; 0xac]; q_tail := [] |} else
  if prefix =? p2sh then Ok {| q_amount := put_le 8 (w_amount o); q_mid := []; q_script := [0x17; 0xa9; 0x14] ++ h ++ [0x87]; q_tail := [] |} else Err.
(** vollarTransaction/txOut.go:23-46 NewTxOut; prefixes 10 1c / 10 41. *)
Definition new_vout (al : alphabet) (H : bytes -> bytes) (o : lvout) : res lout :=
  '(prefix, h) <- decode_check al H (w_address o) ;;
  if beq prefix [0x10; 0x1c] then Ok {| q_amount := put_le 8 (w_amount o); q_mid := [0]; q_script := [0x19; 0x76; 0xa9; 0x14] ++ h ++ [0x88; 0xac]; q_tail := zeros 32 |} else
  if beq prefix [0x10; 0x41] then Ok {| q_amount := put_le 8 (w_amount o); q_mid := [0]; q_script := [0x17; 0xa9; 0x14] ++ h ++ [0x87]; q_tail := zeros 32 |} else Err.
(** txStruct.go NewTxStruct (aliencoin 22-43, verge 23-48, vollar 22-41): head and trail are the fixed parts. *)
Definition new_ltx (newout : lvout -> res lout) (head trail : bytes) (ins : list lvin) (outs : list lvout) : res ltx :=
  i <- mapr new_lin ins ;; o <- mapr newout outs ;; Ok {| l_head := head; l_ins := i; l_outs := o; l_trail := trail |}.
(** txIn.go:39-50 ToBytes; txOut.go ToBytes. *)
Definition lin_bytes (sp : bytes -> bytes -> res bytes) (i : lin) : res bytes :=
  s <- match n_sig i with None => Ok [0] | Some g => sp (g_signature g) (g_pubkey g) end ;;
  Ok (n_txid i ++ n_vout i ++ s ++ n_seq i).
Definition lout_bytes (o : lout) : bytes := q_amount o ++ q_mid o ++ q_script o ++ q_tail o.
(** txStruct.go ToBytes (aliencoin 45-61, verge 50-67, vollar 43-60). *)
Definition ltx_bytes (sp : bytes -> bytes -> res bytes) (t : ltx) : res bytes :=
  i <- mapr (lin_bytes sp) (l_ins t) ;;
  Ok (l_head t ++ [u8 (zlen (l_ins t))] ++ concat i ++ [u8 (zlen (l_outs t))] ++ flat_map lout_bytes (l_outs t) ++ l_trail t).
(** txStruct.go GetHash (aliencoin 63-92, verge 69-99). *)
Definition legacy_hash (H : bytes -> bytes) (t : ltx) (i : nat) : list Z :=
  hex_encode (H (l_head t ++ [u8 (zlen (l_ins t))] ++
     flat_map (fun '(j, n) => n_txid n ++ n_vout n ++ (if Nat.eqb j i then n_lock n else [0]) ++ n_seq n) (combine (seq 0 (length (l_ins t))) (l_ins t)) ++
     [u8 (zlen (l_outs t))] ++ flat_map lout_bytes (l_outs t) ++ l_trail t ++ [1; 0; 0; 0])).
Definition legacy_hashes (H : bytes -> bytes) (t : ltx) : res (list (list Z)) := Ok (map (legacy_hash H t) (seq 0 (length (l_ins t)))).
(** vollarTransaction/txStruct.go:62-127 getPreviousHash, getSequenceHash, getOutputHash, GetHash. *)
Definition vollar_hashes (H : bytes -> bytes) (t : ltx) : res (list (list Z)) :=
  match l_ins t with
  | [] => Err
  | _ =>
      let prev := H (flat_map (fun n => n_txid n ++ n_vout n) (l_ins t)) in
      let seqs := H (flat_map n_seq (l_ins t)) in
      let outs := H (flat_map lout_bytes (l_outs t)) in
      Ok (map (fun n => hex_encode (H (prev ++ seqs ++ outs ++ zeros 32 ++ zeros 32 ++ zeros 4 ++ zeros 4 ++ zeros 8 ++ [1; 0; 0; 0] ++ n_txid n ++ n_vout n ++ n_lock n ++ n_seq n))) (l_ins t))
  end.
(** transaction.go CreateEmptyTransactionAndHash (aliencoin 21-35, verge 21-35), vollar CreateEmptyRawTransactionAndHash 21-37. *)
Definition create_text (sp : bytes -> bytes -> res bytes) (hashes : ltx -> res (list (list Z))) (t : ltx) (ins : list lvin) : res (list Z * list (list Z)) :=
  hs <- hashes t ;; b <- ltx_bytes sp t ;; Ok (hex_encode b ++ flat_map (fun i => [58] ++ w_lock i) ins, hs).
Definition create_aliencoin (al : alphabet) (H : bytes -> bytes) (ins : list lvin) (outs : list lvout) (lockTime : Z) :=
  t <- new_ltx (new_lout 0x17 0x30 al H) [1; 0; 0; 0] (put_le 4 lockTime) ins outs ;; create_text alien_sigpub (legacy_hashes H) t ins.
(** [now] is time.Now().Unix() (vergeTransaction/txStruct.go:26-27). *)
Definition create_verge (now : Z) (al : alphabet) (H : bytes -> bytes) (ins : list lvin) (outs : list lvout) (lockTime timeInterval : Z) :=
  t <- new_ltx (new_lout 0x1e 0x21 al H) ([1; 0; 0; 0] ++ put_le 4 (u32 (u32 now + timeInterval))) (put_le 4 lockTime) ins outs ;; create_text verge_sigpub (legacy_hashes H) t ins.
Definition create_vollar (al : alphabet) (H : bytes -> bytes) (ins : list lvin) (outs : list lvout) :=
  t <- new_ltx (new_vout al H) [1; 0; 0; 0; 0] [] ins outs ;; create_text verge_sigpub (vollar_hashes H) t ins.

(** txStruct.go DecodeTxStructRaw (aliencoin 94-195, verge 101-208, vollar 129-234): one input, one output. Reading the
    head in one piece gives the same errors as reading its parts. *)
Definition read_in (rest : bytes) : res (lin * bytes) :=
  need 32 rest (fun id rest => need 4 rest (fun v rest => need1 rest (fun z rest => if negb (z =? 0) then Err else
  need 4 rest (fun s rest => Ok ({| n_txid := id; n_vout := v; n_sig := None; n_seq := s; n_lock := [] |}, rest))))).
Definition read_out (c : coin) (rest : bytes) : res (lout * bytes) :=
  need 8 rest (fun a rest => need (c_mid c) rest (fun m rest => need1 rest (fun n rest => need n rest (fun s rest =>
  need (c_tail c) rest (fun t rest => Ok ({| q_amount := a; q_mid := m; q_script := n :: s; q_tail := t |}, rest)))))).
Definition read_tx (c : coin) (rest : bytes) : res ltx :=
  need (c_head c) rest (fun h rest => need1 rest (fun n rest => '(ins, rest) <- readn (Z.to_nat n) read_in rest ;;
  need1 rest (fun m rest => '(outs, rest) <- readn (Z.to_nat m) (read_out c) rest ;;
  need (c_trail c) rest (fun t rest => match rest with [] => Ok {| l_head := h; l_ins := ins; l_outs := outs; l_trail := t |} | _ => Err end)))).
Definition decode_raw (c : coin) (text : list Z) : res (ltx * list (list Z)) :=
  match split_on 58 text with
  | t0 :: locks =>
      if zlen (t0 :: locks) <=? 1 then Err else
      match hex_decode t0 with
      | Ok b => t <- read_tx c b ;; if negb (Nat.eqb (length (l_ins t)) (length locks)) then Err else Ok (t, locks)
      | Err => Err
      | Panic => Panic
      end
  | [] => Err
  end.
(** What hex.DecodeString returns together with an error: the bytes before it. *)
Fixpoint hex_prefix (s : list Z) : bytes :=
  match s with
  | a :: b :: r => match hex_val a, hex_val b with Some x, Some y => (x * 16 + y) :: hex_prefix r | _, _ => [] end
  | _ => []
  end.
Definition set_lock (i : lin) (lock : bytes) : lin := {| n_txid := n_txid i; n_vout := n_vout i; n_sig := n_sig i; n_seq := n_seq i; n_lock := u8 (zlen lock) :: lock |}.
Definition set_locks (t : ltx) (locks : list bytes) : ltx :=
  {| l_head := l_head t; l_ins := map (fun '(i, l) => set_lock i l) (combine (l_ins t) locks); l_outs := l_outs t; l_trail := l_trail t |}.
Definition set_sig (i : lin) (g : lsig) : lin := {| n_txid := n_txid i; n_vout := n_vout i; n_sig := Some g; n_seq := n_seq i; n_lock := n_lock i |}.
Definition set_sigs (t : ltx) (gs : list lsig) : ltx :=
  {| l_head := l_head t; l_ins := map (fun '(i, g) => set_sig i g) (combine (l_ins t) gs); l_outs := l_outs t; l_trail := l_trail t |}.
(** The bytes of a hash text; the error is ignored (transaction.go:66, vollar transaction.go:78). *)
Definition unhex (s : list Z) : bytes := hex_prefix s.
(** One signature check: owcrypt.PointDecompress(...)[1:], Verify. *)
Definition check_sig (decompress : bytes -> bytes) (verify : bytes -> bytes -> bytes -> bool) (hash : list Z) (g : lsig) : res bool :=
  pub <- slice_from (decompress (g_pubkey g)) 1 ;; Ok (verify pub (unhex hash) (g_signature g)).
(** aliencoinTransaction/transaction.go:65-72: the first failure ends the loop. *)
Fixpoint check_all (decompress : bytes -> bytes) (verify : bytes -> bytes -> bytes -> bool) (hashes : list (list Z)) (gs : list lsig) : res unit :=
  match gs, hashes with
  | [], _ => Ok tt
  | g :: gs, h :: hs => ok <- check_sig decompress verify h g ;; if ok then check_all decompress verify hs gs else Err
  | _ :: _, [] => Panic
  end.
(** aliencoinTransaction/transaction.go:51-75, vergeTransaction/transaction.go:51-75 VerifyAndCombineTransaction. *)
Definition verify_legacy (c : coin) (sp : bytes -> bytes -> res bytes) (H decompress : bytes -> bytes) (verify : bytes -> bytes -> bytes -> bool) (text : list Z) (gs : list lsig) : res (list Z) :=
  '(t, locks) <- decode_raw c text ;;
  let t := set_locks t (map hex_prefix locks) in
  if (match gs with [] => true | _ => false end) || negb (Nat.eqb (length gs) (length (l_ins t))) then Err else
  hs <- legacy_hashes H t ;;
  _ <- check_all decompress verify hs gs ;;
  b <- ltx_bytes sp (set_sigs t gs) ;; Ok (hex_encode b).
(** vollarTransaction/transaction.go:77-84: every signature is checked, the results are combined. *)
Fixpoint check_every (decompress : bytes -> bytes) (verify : bytes -> bytes -> bytes -> bool) (hashes : list (list Z)) (gs : list lsig) : res bool :=
  match gs, hashes with
  | [], _ => Ok true
  | g :: gs, h :: hs => ok <- check_sig decompress verify h g ;; r <- check_every decompress verify hs gs ;; Ok (ok && r)
  | _ :: _, [] => Panic
  end.
(** vollarTransaction/transaction.go:53-91 VerifyAndCombineRawTransaction: the flag and the text. *)
Definition verify_vollar (H decompress : bytes -> bytes) (verify : bytes -> bytes -> bytes -> bool) (text : list Z) (gs : list lsig) : res (bool * list Z) :=
  '(t, locks) <- decode_raw vollar text ;;
  if negb (Nat.eqb (length (l_ins t)) (length gs)) || negb (Nat.eqb (length (l_ins t)) (length locks)) then Err else
  ls <- mapr hex_decode locks ;;
  let t := set_locks t ls in
  hs <- vollar_hashes H t ;;
  pass <- check_every decompress verify hs gs ;;
  b <- ltx_bytes verge_sigpub (set_sigs t gs) ;;
  Ok (pass, hex_encode (b ++ zeros (82 + length (l_ins t)))).
