(** Model of mateverseTransaction. [H] is the double SHA-256, [decompress] and [verify] owcrypt's PointDecompress and Verify.
    The inputs are distinct objects. decodeEmptyTx reverses the ids in place, in a part of the buffer that is not read
    again (transaction.go:48, txIn.go:207 read from inputsEnd on), so the model leaves the buffer alone. *)
From Coq Require Import String ZArith List Bool.
From Verif Require Import Go Rd CodecModel SigModel BtcModel HyperModel LiteModel.
Import ListNotations.
Open Scope Z_scope.

(** mateverseTransaction/txIn.go:9-17 TxInput. *)
Record mvin := { m_txid : list Z; m_vout : Z; m_lock : list Z; m_seq : Z; m_hash : list Z; m_sig : list Z; m_pub : list Z }.
(** txIn.go:77-105: one round of the loop of decodeEmptyTx. *)
Definition read_min (rest : bytes) : res (mvin * bytes) :=
  need 32 rest (fun id rest => need 4 rest (fun v rest => need1 rest (fun z rest => if negb (z =? 0) then Err else
  need 4 rest (fun s rest => Ok ({| m_txid := hex_encode (rev id); m_vout := le_num v; m_lock := []; m_seq := le_num s; m_hash := []; m_sig := []; m_pub := [] |}, rest))))).
(** txIn.go:61-75: the number of inputs. *)
Definition read_count {A} (rest : bytes) (k : Z -> bytes -> res A) : res A :=
  need1 rest (fun b rest => if negb (b =? 0xfd) then (if b =? 0 then Err else k b rest) else need 2 rest (fun c rest => k (le_num c) rest)).
(** txIn.go:43-112 decodeEmptyTx; the second result is tx[inputsEnd:]. *)
Definition decode_empty (tx : bytes) : res (list mvin * bytes) :=
  need 4 tx (fun v rest => if negb (le_num v =? 4) then Err else
  read_count rest (fun n rest => '(ins, rest) <- readn (Z.to_nat n) read_min rest ;; match rest with [] => Err | _ => Ok (ins, rest) end)).
(** transaction.go:9-20 GetInputsFromEmptyRawTransaction. *)
Definition get_inputs (text : list Z) : res (list mvin) :=
  match hex_decode text with Ok tx => '(ins, _) <- decode_empty tx ;; Ok ins | Err => Err | Panic => Panic end.

(** strings.ReplaceAll for a non-empty old string: [skip] characters belong to an occurrence already replaced. *)
Fixpoint prefixb (p s : list Z) : bool :=
  match p, s with
  | [], _ => true
  | a :: p, b :: s => (a =? b) && prefixb p s
  | _ :: _, [] => false
  end.
Fixpoint replace_from (old new s : list Z) (skip : nat) : list Z :=
  match s with
  | [] => []
  | c :: r => match skip with
              | S k => replace_from old new r k
              | O => if prefixb old s then new ++ replace_from old new r (length old - 1) else c :: replace_from old new r 0
              end
  end.
Definition replace_all (s old new : list Z) : list Z := replace_from old new s 0.
(** txIn.go:114-138 getHashFromLockScript. *)
Definition lock_hex (script : list Z) : list Z :=
  let script := replace_all script (str " ") [] in
  let script := replace_all script (str "duphash160[") (str "76a914") in
  let script := replace_all script (str "]equalverifychecksig") (str "88ac") in
  let script := replace_all script (str "checkattenuationverify") (str "b2") in
  let script := replace_all script (str "[") [] in
  match split_on 93 script with
  | [a] => a
  | [a; b; c] => str "4d" ++ hex_encode (put_le 2 (u16 (zlen a / 2))) ++ a ++ hex_encode [u8 (zlen b / 2)] ++ b ++ c
  | _ => str "unknown"
  end.
(** txIn.go:144-149, 180-185: the number of inputs. *)
Definition put_count (n : Z) : bytes := if n <? 0xfd then [u8 n] else 0xfd :: put_le 2 (u16 n).
(** The result of a decoder whose error is ignored: nil (reverseHexToBytes). *)
Definition or_nil (r : res bytes) : bytes := match r with Ok b => b | _ => [] end.
(** txIn.go:140-165 getHashCalcBytes. *)
Definition calc_bytes (ins : list mvin) (index : nat) : bytes :=
  put_le 4 4 ++ put_count (zlen ins) ++
  flat_map (fun '(i, n) => or_nil (reverse_hex (m_txid n)) ++ put_le 4 (m_vout n) ++
    (if Nat.eqb i index then (let l := hex_prefix (m_lock n) in u8 (zlen l) :: l) else [0]) ++ put_le 4 (m_seq n)) (combine (seq 0 (length ins)) ins).
Definition set_mlock (n : mvin) (l : list Z) : mvin := {| m_txid := m_txid n; m_vout := m_vout n; m_lock := l; m_seq := m_seq n; m_hash := m_hash n; m_sig := m_sig n; m_pub := m_pub n |}.
Definition set_mhash (n : mvin) (h : list Z) : mvin := {| m_txid := m_txid n; m_vout := m_vout n; m_lock := m_lock n; m_seq := m_seq n; m_hash := h; m_sig := m_sig n; m_pub := m_pub n |}.
(** transaction.go:33-52: the loop of GetSigHash; it changes the inputs, [before] are those already done. The inputs as
    they are left when an error is returned are part of the result. *)
Fixpoint sighash_loop (H : bytes -> bytes) (tail : bytes) (before rest : list mvin) : list mvin * bool :=
  match rest with
  | [] => (before, true)
  | n :: rest =>
      if match m_lock n with [] => true | _ => false end then (before ++ n :: rest, false) else
      let lock := lock_hex (m_lock n) in
      if (match lock with [] => true | _ => false end) || (zlen lock <? 50) then (before ++ n :: rest, false) else
      let n := set_mlock n lock in
      if match hex_decode (m_txid n) with Ok _ => negb (zlen (m_txid n) =? 64) | _ => true end then (before ++ n :: rest, false) else
      let h := hex_encode (H (calc_bytes (before ++ n :: rest) (length before) ++ tail ++ put_le 4 1)) in
      sighash_loop H tail (before ++ [set_mhash n h]) rest
  end.
(** transaction.go:22-55 GetSigHash: the inputs afterwards and whether there was no error. *)
Definition get_sig_hash (H : bytes -> bytes) (text : list Z) (ins : list mvin) : list mvin * bool :=
  match hex_decode text with
  | Ok tx => match decode_empty tx with Ok (_, tail) => sighash_loop H tail [] ins | _ => (ins, false) end
  | _ => (ins, false)
  end.
(** txSigPub.go:59-81 verifyTransactionHash. *)
Definition verify_input (decompress : bytes -> bytes) (verify : bytes -> bytes -> bytes -> bool) (n : mvin) : res bool :=
  match hex_decode (m_pub n), hex_decode (m_hash n), hex_decode (m_sig n) with
  | Ok p, Ok h, Ok s =>
      if negb (zlen p =? 33) || negb (zlen h =? 32) || negb (zlen s =? 64) then Ok false else
      pub <- slice_from (decompress p) 1 ;; Ok (verify pub h s)
  | _, _, _ => Ok false
  end.
Fixpoint verify_inputs (decompress : bytes -> bytes) (verify : bytes -> bytes -> bytes -> bool) (ins : list mvin) : res bool :=
  match ins with
  | [] => Ok true
  | n :: ins => ok <- verify_input decompress verify n ;; if ok then verify_inputs decompress verify ins else Ok false
  end.
(** txIn.go:187-205: one input of getSubmitBytes; nil (None) when the id is not hexadecimal. *)
Fixpoint submit_ins (ins : list mvin) : res (option bytes) :=
  match ins with
  | [] => Ok (Some [])
  | n :: ins =>
      match reverse_hex (m_txid n) with
      | Ok id =>
          sp <- hypercash_sigpub (hex_prefix (m_sig n)) (hex_prefix (m_pub n)) 1 ;;
          r <- submit_ins ins ;;
          Ok (match r with Some t => Some (id ++ put_le 4 (m_vout n) ++ sp ++ put_le 4 (m_seq n) ++ t) | None => None end)
      | _ => Ok None
      end
  end.
(** txIn.go:167-208 getSubmitBytes. *)
Definition submit_bytes (ins : list mvin) (text : list Z) : res (option bytes) :=
  match hex_decode text with
  | Ok tx => match decode_empty tx with
             | Ok (_, tail) => r <- submit_ins ins ;; Ok (match r with Some b => Some (put_le 4 4 ++ put_count (zlen ins) ++ b ++ tail) | None => None end)
             | _ => Ok None
             end
  | _ => Ok None
  end.
(** transaction.go:76-91 VerifyAndCombineTransaction: None is (false, ""), Some r is (true, r). *)
Definition mate_verify (decompress : bytes -> bytes) (verify : bytes -> bytes -> bytes -> bool) (text : list Z) (ins : list mvin) : res (option (list Z)) :=
  ok <- verify_inputs decompress verify ins ;;
  if negb ok then Ok None else
  r <- submit_bytes ins text ;; Ok (match r with Some b => Some (hex_encode b) | None => None end).
