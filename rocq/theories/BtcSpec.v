(** The Bitcoin transaction wire format, stated independently of the code. Counts and script lengths are single bytes
    (the format below is the consensus format for counts and lengths up to 252). *)
From Coq Require Import ZArith List Bool.
From Verif Require Import Go.
Import ListNotations.
Open Scope Z_scope.

(** One input: 32-byte id (reversed), 4-byte output index, script with its length, 4-byte sequence. *)
Record spec_in := { s_txid : bytes; s_vout : Z; s_script : bytes; s_seq : Z }.
(** One output: 8-byte amount, locking script with its length. *)
Record spec_out := { s_amount : Z; s_lock : bytes }.
Definition wire_spec_in (i : spec_in) : bytes :=
  s_txid i ++ le_bytes 4 (s_vout i) ++ zlen (s_script i) :: s_script i ++ le_bytes 4 (s_seq i).
Definition wire_spec_out (o : spec_out) : bytes := le_bytes 8 (s_amount o) ++ zlen (s_lock o) :: s_lock o.
Definition wire_spec_tx (version : Z) (ins : list spec_in) (outs : list spec_out) (lockTime : Z) : bytes :=
  le_bytes 4 version ++ zlen ins :: concat (map wire_spec_in ins) ++ zlen outs :: concat (map wire_spec_out outs) ++ le_bytes 4 lockTime.

(** The consensus format: counts and lengths are CompactSize integers. *)
Definition compact_size (n : Z) : bytes :=
  if n <? 253 then [n] else if n <? 2 ^ 16 then 253 :: le_bytes 2 n else if n <? 2 ^ 32 then 254 :: le_bytes 4 n else 255 :: le_bytes 8 n.
Definition consensus_in (i : spec_in) : bytes :=
  s_txid i ++ le_bytes 4 (s_vout i) ++ compact_size (zlen (s_script i)) ++ s_script i ++ le_bytes 4 (s_seq i).
Definition consensus_out (o : spec_out) : bytes := le_bytes 8 (s_amount o) ++ compact_size (zlen (s_lock o)) ++ s_lock o.
Definition consensus_tx (version : Z) (ins : list spec_in) (outs : list spec_out) (lockTime : Z) : bytes :=
  le_bytes 4 version ++ compact_size (zlen ins) ++ concat (map consensus_in ins) ++ compact_size (zlen outs) ++ concat (map consensus_out outs) ++ le_bytes 4 lockTime.

(** Standard locking scripts. *)
Definition p2pkh_script (h : bytes) : bytes := [0x76; 0xA9; 0x14] ++ h ++ [0x88; 0xAC].
Definition p2sh_script (h : bytes) : bytes := [0xA9; 0x14] ++ h ++ [0x87].
Definition witness_v0_script (h : bytes) : bytes := [0; zlen h] ++ h.

(** The legacy signature preimage: the transaction with the spent script at input [i] and no script at the other
    inputs, then the hash type. *)
Definition spec_scripts_only_at (n : nat) (script : bytes) (ins : list spec_in) : list spec_in :=
  map (fun p => {| s_txid := s_txid (snd p); s_vout := s_vout (snd p); s_script := if Nat.eqb (fst p) n then script else []; s_seq := s_seq (snd p) |})
      (combine (seq 0 (length ins)) ins).
Definition legacy_preimage (version : Z) (ins : list spec_in) (outs : list spec_out) (lockTime : Z) (n : nat) (script : bytes) : bytes :=
  consensus_tx version (spec_scripts_only_at n script ins) outs lockTime ++ le_bytes 4 1.
(** The BIP143 preimage of input [i]; [H] is double SHA-256. *)
Definition bip143_preimage (H : bytes -> bytes) (version : Z) (ins : list spec_in) (outs : list spec_out) (lockTime : Z) (i : spec_in) (code : bytes) (amount : Z) : bytes :=
  le_bytes 4 version ++
  H (concat (map (fun i => s_txid i ++ le_bytes 4 (s_vout i)) ins)) ++
  H (concat (map (fun i => le_bytes 4 (s_seq i)) ins)) ++
  s_txid i ++ le_bytes 4 (s_vout i) ++
  compact_size (zlen code) ++ code ++
  le_bytes 8 amount ++
  le_bytes 4 (s_seq i) ++
  H (concat (map consensus_out outs)) ++
  le_bytes 4 lockTime ++ le_bytes 4 1.
