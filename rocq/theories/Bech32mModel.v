(** Model of /repo/addressEncoder/bech32m/bech32m.go and of the bech32 code of
    /repo/bytomTransaction/bech32.go (the btcutil variant).
    Strings are byte lists. [to_lower]/[to_upper] are the ASCII foldings, so the model speaks
    about strings of ASCII characters only (strings.ToLower also folds some non-ASCII letters). *)
From Coq Require Import String ZArith List Bool.
From Verif Require Import Go.
Import ListNotations.
Open Scope Z_scope.

(** bech32m.go:23 generator / bytomTransaction/bech32.go:12 gen. *)
Definition pm_gen : list Z := [996825010; 642813549; 513874426; 1027748829; 705979059].
(** bech32m.go:31-37, bytom bech32.go:220-224: the inner loop over the five generator words. *)
Fixpoint pm_xor (gs : list Z) (i top chk : Z) : Z :=
  match gs with
  | [] => chk
  | g :: r => pm_xor r (i + 1) top (if Z.land (Z.shiftr top i) 1 =? 1 then Z.lxor chk g else Z.lxor chk 0)
  end.
(** bech32m.go:28-38, bytom bech32.go:217-225. The int register stays below 2^31, so no wrap is modelled. *)
Definition pm_step (chk v : Z) : Z :=
  let top := Z.shiftr chk 25 in
  pm_xor pm_gen 0 top (Z.lxor (Z.shiftl (Z.land chk 33554431) 5) v).
(** bech32m.go:25-40 polymod; bytom bech32.go:215-227 bech32Polymod. *)
Definition pm_polymod (values : list Z) : Z := fold_left pm_step values 1.

(** bech32m.go:42-53 hrpExpand; bytom bech32.go:230-240 bech32HrpExpand. *)
Definition hrp_expand (hrp : list Z) : list Z :=
  map (fun c => Z.shiftr c 5) hrp ++ [0] ++ map (fun c => Z.land c 31) hrp.

(** bech32m.go:21 *)
Definition bech32m_const : Z := 734539939.
Inductive variant := Bech32 | Bech32m.

(** bech32m.go:55-65 verifyChecksum. *)
Definition bm_verify (hrp data : list Z) : option variant :=
  let c := pm_polymod (hrp_expand hrp ++ data) in
  if c =? 1 then Some Bech32 else if c =? bech32m_const then Some Bech32m else None.

(** bech32m.go:67-80 createChecksum; bytom bech32.go:197-212 bech32Checksum (spec Bech32). *)
Definition bm_checksum (hrp data : list Z) (spec : variant) : list Z :=
  let values := (hrp_expand hrp ++ data) ++ zeros 6 in
  let c := match spec with Bech32m => bech32m_const | Bech32 => 1 end in
  let md := Z.lxor (pm_polymod values) c in
  map (fun i => Z.land (Z.shiftr md (5 * (5 - i))) 31) [0; 1; 2; 3; 4; 5].

Fixpoint lookup_charset (charset : list Z) (ds : list Z) : res (list Z) :=
  match ds with
  | [] => Ok []
  | d :: r => x <- idx charset d ;; t <- lookup_charset charset r ;; Ok (x :: t)
  end.
(** bech32m.go:83-92 Encode; charset[p] panics when p is out of range. *)
Definition bm_encode (hrp data : list Z) (spec : variant) (charset : list Z) : res (list Z) :=
  s <- lookup_charset charset (data ++ bm_checksum hrp data spec) ;;
  Ok (hrp ++ [49] ++ s).

Definition lower_char (c : Z) : Z := if (65 <=? c) && (c <=? 90) then c + 32 else c.
Definition upper_char (c : Z) : Z := if (97 <=? c) && (c <=? 122) then c - 32 else c.
Definition to_lower (s : list Z) : list Z := map lower_char s.
Definition to_upper (s : list Z) : list Z := map upper_char s.

(** strings.LastIndex(s, one-byte string), -1 when absent *)
Fixpoint last_index (c : Z) (s : list Z) : Z :=
  match s with
  | [] => -1
  | x :: r => let k := last_index c r in
              if 0 <=? k then k + 1 else if x =? c then 0 else -1
  end.
(** strings.Index(s, one-byte string) *)
Fixpoint index_of (c : Z) (s : list Z) : Z :=
  match s with
  | [] => -1
  | x :: r => if x =? c then 0 else let k := index_of c r in if k <? 0 then -1 else k + 1
  end.
Fixpoint chars_to_digits (charset : list Z) (s : list Z) : res (list Z) :=
  match s with
  | [] => Ok []
  | c :: r => let d := index_of c charset in
              if d =? -1 then Err else t <- chars_to_digits charset r ;; Ok (d :: t)
  end.

(** bech32m.go:95-135 Decode. *)
Definition bm_decode (s charset : list Z) : res (list Z * list Z * variant) :=
  if 90 <? zlen s then Err else
  if negb (beq (to_lower s) s) && negb (beq (to_upper s) s) then Err else
  let s := to_lower s in
  let pos := last_index 49 s in
  if pos <? 1 then Err else
  if zlen s <? pos + 7 then Err else
  hrp <- slice s 0 pos ;;
  if existsb (fun c => (c <? 33) || (126 <? c)) hrp then Err else
  data <- chars_to_digits charset (skipn (Z.to_nat (pos + 1)) s) ;;
  match bm_verify hrp data with
  | None => Err
  | Some spec => d <- slice data 0 (zlen data - 6) ;; Ok (hrp, d, spec)
  end.

(** bech32m.go:147-150, the inner loop; [fuel] bounds the iterations (bits/tobits < fuel). *)
Fixpoint cb_emit (fuel : nat) (acc bits tobits : Z) : list Z * Z :=
  match fuel with
  | O => ([], bits)
  | S f => if tobits <=? bits
           then let bits := bits - tobits in
                let '(r, b) := cb_emit f acc bits tobits in
                (u8 (Z.land (Z.shiftr acc bits) (2 ^ tobits - 1)) :: r, b)
           else ([], bits)
  end.
(** bech32m.go:144-151. *)
Fixpoint cb_loop (data : list Z) (acc bits frombits tobits : Z) : list Z * Z * Z :=
  match data with
  | [] => ([], acc, bits)
  | v :: r =>
      let acc := Z.land (Z.lor (Z.shiftl acc frombits) v) (2 ^ (frombits + tobits - 1) - 1) in
      let '(out, bits) := cb_emit (Z.to_nat (bits + frombits)) acc (bits + frombits) tobits in
      let '(out', acc', bits') := cb_loop r acc bits frombits tobits in
      (out ++ out', acc', bits')
  end.
(** bech32m.go:137-162 Convertbits (only ever called with 8,5 and 5,8). *)
Definition convertbits (data : list Z) (frombits tobits : Z) (pad : bool) : res (list Z) :=
  let '(ret, acc, bits) := cb_loop data 0 0 frombits tobits in
  if pad
  then Ok (if 0 <? bits then ret ++ [u8 (Z.land (Z.shiftl acc (tobits - bits)) (2 ^ tobits - 1))] else ret)
  else if frombits <=? bits then Err
  else if negb (Z.land (Z.shiftl acc (tobits - bits)) (2 ^ tobits - 1) =? 0) then Err
  else Ok ret.

(** bech32m.go:164-170 Bech32mEncode. *)
Definition bech32m_encode (prefix data charset : list Z) : res (list Z) :=
  conv <- convertbits data 8 5 true ;;
  bm_encode prefix conv Bech32m charset.

(** bech32m.go:172-184 Bech32mDecode. [Ok None] is the pair (nil, nil): no data and no error. *)
Definition bech32m_decode (address prefix charset : list Z) : res (option (list Z)) :=
  '(prechk, data, spec) <- bm_decode address charset ;;
  if negb (beq prechk prefix) then Ok None else
  match spec with
  | Bech32 => Ok None
  | Bech32m => h <- convertbits data 5 8 false ;; Ok (Some h)
  end.

(** *** bytomTransaction/bech32.go *)
(** bytom bech32.go:10 *)
Definition bytom_charset : list Z := str "qpzry9x8gf2tvdw0s3jn54khce6mua7l".

(** bytom bech32.go:116-125 toChars: an error, not a panic, for values of 32 and more. *)
Fixpoint to_chars (data : list Z) : res (list Z) :=
  match data with
  | [] => Ok []
  | b :: r => if 32 <=? b then Err else x <- idx bytom_charset b ;; t <- to_chars r ;; Ok (x :: t)
  end.
(** bytom bech32.go:83-97 Bech32Encode. *)
Definition bytom_encode (hrp data : list Z) : res (list Z) :=
  s <- to_chars (data ++ bm_checksum hrp data Bech32) ;; Ok (hrp ++ [49] ++ s).
(** bytom bech32.go:243-250 bech32VerifyChecksum. *)
Definition bytom_verify (hrp data : list Z) : bool := pm_polymod (hrp_expand hrp ++ data) =? 1.
(** bytom bech32.go:16-78 Bech32Decode. *)
Definition bytom_decode (s : list Z) : res (list Z * list Z) :=
  if (zlen s <? 8) || (90 <? zlen s) then Err else
  if existsb (fun c => (c <? 33) || (126 <? c)) s then Err else
  if negb (beq s (to_lower s)) && negb (beq s (to_upper s)) then Err else
  let s := to_lower s in
  let one := last_index 49 s in
  if (one <? 1) || (zlen s <? one + 7) then Err else
  hrp <- slice s 0 one ;;
  decoded <- chars_to_digits bytom_charset (skipn (Z.to_nat (one + 1)) s) ;;
  if negb (bytom_verify hrp decoded)
  then _ <- slice decoded 0 (zlen decoded - 6) ;; Err
  else d <- slice decoded 0 (zlen decoded - 6) ;; Ok (hrp, d).

(** bytom bech32.go:149-177, the extraction loop for one input byte; each round removes at
    least one bit, so [fuel] 8 is enough. State: b, remFromBits, nextByte, filledBits. *)
Fixpoint by_extract (fuel : nat) (b remFrom nextByte filled toBits : Z) : list Z * Z * Z :=
  match fuel with
  | O => ([], nextByte, filled)
  | S f =>
      if 0 <? remFrom then
        let remTo := toBits - filled in
        let toExtract := if remTo <? remFrom then remTo else remFrom in
        let nextByte := Z.lor (u8 (Z.shiftl nextByte toExtract)) (Z.shiftr b (8 - toExtract)) in
        let b := u8 (Z.shiftl b toExtract) in
        let remFrom := remFrom - toExtract in
        let filled := filled + toExtract in
        if filled =? toBits
        then let '(r, n, fl) := by_extract f b remFrom 0 0 toBits in (nextByte :: r, n, fl)
        else by_extract f b remFrom nextByte filled toBits
      else ([], nextByte, filled)
  end.
(** bytom bech32.go:142-178. *)
Fixpoint by_loop (data : list Z) (nextByte filled fromBits toBits : Z) : list Z * Z * Z :=
  match data with
  | [] => ([], nextByte, filled)
  | v :: r =>
      let '(out, n, fl) := by_extract 8 (u8 (Z.shiftl v (8 - fromBits))) fromBits nextByte filled toBits in
      let '(out', n', fl') := by_loop r n fl fromBits toBits in
      (out ++ out', n', fl')
  end.
(** bytom bech32.go:129-194 ConvertBits. *)
Definition bytom_convertbits (data : list Z) (fromBits toBits : Z) (pad : bool) : res (list Z) :=
  if (fromBits <? 1) || (8 <? fromBits) || (toBits <? 1) || (8 <? toBits) then Err else
  let '(ret, nextByte, filled) := by_loop data 0 0 fromBits toBits in
  if pad && (0 <? filled)
  then Ok (ret ++ [u8 (Z.shiftl nextByte (toBits - filled))])
  else if (0 <? filled) && ((4 <? filled) || negb (nextByte =? 0)) then Err
  else Ok ret.

(** bytom bech32.go:252-291 decodeSegWitAddress. *)
Definition bytom_decode_segwit (address : list Z) : res (Z * list Z) :=
  '(_, data) <- bytom_decode address ;;
  if zlen data <? 1 then Err else
  version <- idx data 0 ;;
  if 16 <? version then Err else
  rest <- slice_from data 1 ;;
  regrouped <- bytom_convertbits rest 5 8 false ;;
  if (zlen regrouped <? 2) || (40 <? zlen regrouped) then Err else
  if (version =? 0) && negb (zlen regrouped =? 20) && negb (zlen regrouped =? 32) then Err else
  Ok (version, regrouped).
(** bytom bech32.go:295-324 encodeSegWitAddress. *)
Definition bytom_encode_segwit (hrp : list Z) (witnessVersion : Z) (program : list Z) : res (list Z) :=
  converted <- bytom_convertbits program 8 5 true ;;
  bech <- bytom_encode hrp (witnessVersion :: converted) ;;
  '(version, prog) <- bytom_decode_segwit bech ;;
  if negb (version =? witnessVersion) || negb (beq prog program) then Err else Ok bech.
