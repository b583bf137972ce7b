(** Model of the method Decode of /repo/addressEncoder/base64.go. *)
From Coq Require Import String ZArith List Bool.
From Verif Require Import Go Base64Props.
Import ListNotations.
Open Scope Z_scope.

(** base64.go:52-59 DecodedLen. *)
Definition decoded_len (e : encoding) (n : Z) : Z := if enc_pad e =? -1 then n * 6 / 8 else n / 4 * 3.
(** enc.decodeMap[c]; the map has 257 entries and c is a byte. *)
Definition dmap (e : encoding) (c : Z) : Z := nth (Z.to_nat c) (enc_map e) 255.
(** copy of [b] into [dst] from position [n] on; the callers check the room. *)
Definition put_at (dst : bytes) (n : Z) (b : bytes) : bytes := firstn (Z.to_nat n) dst ++ b ++ skipn (Z.to_nat n + length b) dst.
(** The values of the first k characters, if all of them are in the alphabet (the tests of decode32 and decode64). *)
Fixpoint digits (e : encoding) (k : nat) (src : bytes) : option (list Z) :=
  match k, src with
  | O, _ => Some []
  | S k', c :: r => if dmap e c =? 255 then None else match digits e k' r with Some vs => Some (dmap e c :: vs) | None => None end
  | S _, [] => None
  end.
(** dn |= n << s, for fields that do not overlap: their sum. *)
Fixpoint packed (vs shifts : list Z) : Z := match vs, shifts with v :: vs, s :: ss => v * 2 ^ s + packed vs ss | _, _ => 0 end.
(** base64.go:108-128 decode32 and 130-166 decode64, with the number of characters they read. *)
Definition decode32 (e : encoding) (src : bytes) : option Z := match digits e 4 src with Some vs => Some (packed vs [26; 20; 14; 8]) | None => None end.
Definition decode64 (e : encoding) (src : bytes) : option Z := match digits e 8 src with Some vs => Some (packed vs [58; 52; 46; 40; 34; 28; 22; 16]) | None => None end.
(** base64.go:216-218, 232-234: skipping line breaks. *)
Definition nl (c : Z) : bool := (c =? 10) || (c =? 13).
Fixpoint skip_nl (src : bytes) : bytes := match src with c :: r => if nl c then skip_nl r else src | [] => [] end.
(** The loop of decodeQuantum, base64.go:179-241: it stops ([Stop]: the rest and whether there is an error) or has read the
    characters of a group ([Got]: their values, dinc, dlen, the rest, whether there is an error). *)
Inductive quantum := Stop (rest : bytes) (bad : bool) | Got (dbuf : list Z) (dinc dlen : Z) (rest : bytes) (bad : bool).
Definition finish (dbuf : list Z) (src : bytes) : quantum := let r := skip_nl src in Got dbuf 3 (zlen dbuf) r (match r with [] => false | _ => true end).
Fixpoint qread (e : encoding) (src : bytes) (dbuf : list Z) {struct src} : quantum :=
  if zlen dbuf =? 4 then Got dbuf 3 4 src false else
  match src with
  | [] => if zlen dbuf =? 0 then Stop [] false else if (zlen dbuf =? 1) || negb (enc_pad e =? -1) then Stop [] true else Got dbuf (zlen dbuf - 1) (zlen dbuf) [] false
  | c :: r =>
      let out := dmap e c in
      if negb (out =? 255) then qread e r (dbuf ++ [out]) else
      if nl c then qread e r dbuf else
      if negb (c =? enc_pad e) then Stop r true else
      if zlen dbuf <=? 1 then Stop r true else
      if zlen dbuf =? 2 then
        match skip_nl r with
        | [] => Stop [] true
        | c' :: r' => if negb (c' =? enc_pad e) then Stop (c' :: r') true else finish dbuf r'
        end
      else finish dbuf r
  end.
(** base64.go:174-267 decodeQuantum on dst[n:]: the new destination, the rest, the number of bytes, whether there is an error. *)
Definition decode_quantum (e : encoding) (dst : bytes) (n : Z) (src : bytes) : res (bytes * bytes * Z * bool) :=
  match qread e src [] with
  | Stop r bad => Ok (dst, r, 0, bad)
  | Got dbuf dinc dlen r bad =>
      let val := nth 0 dbuf 0 * 2 ^ 18 + nth 1 dbuf 0 * 2 ^ 12 + nth 2 dbuf 0 * 2 ^ 6 + nth 3 dbuf 0 in
      let b0 := val / 2 ^ 16 mod 256 in let b1 := val / 2 ^ 8 mod 256 in let b2 := val mod 256 in
      let room := zlen dst - n in
      if room <? dlen - 1 then Panic else
      let close dst := if room <? dinc then Panic else Ok (dst, r, dlen - 1, bad) in
      if dlen =? 4 then close (put_at (put_at (put_at dst (n + 2) [b2]) (n + 1) [b1]) n [b0])
      else if dlen =? 3 then
        let dst := put_at dst (n + 1) [b1] in
        if enc_strict e && negb (b2 =? 0) then Ok (dst, r, 0, true) else close (put_at dst n [b0])
      else
        let dst := put_at dst n [b0] in
        if enc_strict e && (negb (b1 =? 0) || negb (b2 =? 0)) then Ok (dst, r, 0, true) else close dst
  end.
(** base64.go:275-303, the two fast loops: while there are k characters and room for k bytes. [fuel] bounds the rounds; every round
    takes at least one character. *)
Fixpoint fast (fuel : nat) (k adv : Z) (dec : bytes -> option Z) (e : encoding) (next : bytes -> Z -> bytes -> res (bytes * Z * bool)) (dst : bytes) (n : Z) (src : bytes) : res (bytes * Z * bool) :=
  match fuel with
  | O => Err
  | S f =>
      if (k <=? zlen src) && (k <=? zlen dst - n) then
        match dec src with
        | Some dn => fast f k adv dec e next (put_at dst n (be_bytes (Z.to_nat k) dn)) (n + adv) (skipn (Z.to_nat k) src)
        | None => '(dst, r, m, bad) <- decode_quantum e dst n src ;; if bad : bool then Ok (dst, n + m, true) else fast f k adv dec e next dst (n + m) r
        end
      else next dst n src
  end.
(** base64.go:305-312, the last loop. *)
Fixpoint slow (fuel : nat) (e : encoding) (dst : bytes) (n : Z) (src : bytes) : res (bytes * Z * bool) :=
  match fuel with
  | O => Err
  | S f =>
      match src with
      | [] => Ok (dst, n, false)
      | _ => '(dst, r, m, bad) <- decode_quantum e dst n src ;; if bad : bool then Ok (dst, n + m, true) else slow f e dst (n + m) r
      end
  end.
(** base64.go:269-314 Decode on a machine with 64-bit integers: the destination afterwards, n, and whether there is an error. *)
Definition decode (e : encoding) (dst src : bytes) : res (bytes * Z * bool) :=
  match src with
  | [] => Ok (dst, 0, false)
  | _ =>
      fast (S (length src)) 8 6 (decode64 e) e (fun dst n src =>
      fast (S (length src)) 4 3 (decode32 e) e (fun dst n src =>
      slow (S (length src)) e dst n src) dst n src) dst 0 src
  end.
