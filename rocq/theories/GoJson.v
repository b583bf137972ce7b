(** Model of the parts of Go's standard library (not in /repo) that turn values into JSON text: encoding/json with its
    default HTML escaping, strconv.FormatInt in base 10 and base64.StdEncoding.EncodeToString. *)
From Coq Require Import String ZArith List Bool.
From Verif Require Import Go.
Import ListNotations.
Open Scope Z_scope.

(** unicode/utf8 DecodeRune on a non-empty text: the rune and the number of further bytes it takes; an invalid byte
    gives U+FFFD and takes no further byte. *)
Definition rune_step (b0 : Z) (r : list Z) : Z * nat :=
  if b0 <? 128 then (b0, 0%nat)
  else if (194 <=? b0) && (b0 <=? 223) then
    match r with
    | b1 :: _ => if cont b1 then ((b0 - 192) * 64 + (b1 - 128), 1%nat) else (65533, 0%nat)
    | _ => (65533, 0%nat)
    end
  else if (224 <=? b0) && (b0 <=? 239) then
    match r with
    | b1 :: b2 :: _ =>
      let lo := if b0 =? 224 then 160 else 128 in
      let hi := if b0 =? 237 then 159 else 191 in
      if (lo <=? b1) && (b1 <=? hi) && cont b2 then ((b0 - 224) * 4096 + (b1 - 128) * 64 + (b2 - 128), 2%nat) else (65533, 0%nat)
    | _ => (65533, 0%nat)
    end
  else if (240 <=? b0) && (b0 <=? 244) then
    match r with
    | b1 :: b2 :: b3 :: _ =>
      let lo := if b0 =? 240 then 144 else 128 in
      let hi := if b0 =? 244 then 143 else 191 in
      if (lo <=? b1) && (b1 <=? hi) && cont b2 && cont b3
      then ((b0 - 240) * 262144 + (b1 - 128) * 4096 + (b2 - 128) * 64 + (b3 - 128), 3%nat) else (65533, 0%nat)
    | _ => (65533, 0%nat)
    end
  else (65533, 0%nat).
(** encoding/json htmlSafeSet. *)
Definition json_safe (b : Z) : bool :=
  (32 <=? b) && (b <? 128) && negb ((b =? 34) || (b =? 92) || (b =? 60) || (b =? 62) || (b =? 38)).
(** encoding/json encodeState.string, the switch for a byte below utf8.RuneSelf. From Go 1.22 on \b and \f have short
    forms; this is the text of the earlier versions (go.mod asks for 1.12). *)
Definition json_ascii (b : Z) : list Z :=
  if json_safe b then [b]
  else if (b =? 92) || (b =? 34) then [92; b]
  else if b =? 10 then [92; 110]
  else if b =? 13 then [92; 114]
  else if b =? 9 then [92; 116]
  else [92; 117; 48; 48; hex_digit (b / 16); hex_digit (b mod 16)].
(** encoding/json encodeState.string, the loop; the fuel is the length of the text. *)
Fixpoint json_chars (f : nat) (s : list Z) : list Z :=
  match f with
  | O => []
  | S f' => match s with
    | [] => []
    | b0 :: r =>
        if b0 <? 128 then json_ascii b0 ++ json_chars f' r
        else let '(c, n) := rune_step b0 r in
             if (c =? 65533) && Nat.eqb n 0 then [92; 117; 102; 102; 102; 100] ++ json_chars f' r
             else if (c =? 8232) || (c =? 8233) then [92; 117; 50; 48; 50; hex_digit (Z.land c 15)] ++ json_chars f' (skipn n r)
             else (b0 :: firstn n r) ++ json_chars f' (skipn n r)
    end
  end.
Definition go_string (s : list Z) : list Z := [34] ++ json_chars (length s) s ++ [34].
Fixpoint go_join (es : list (list Z)) : list Z :=
  match es with [] => [] | [e] => e | e :: r => e ++ [44] ++ go_join r end.
(** encoding/json arrayEncoder and sliceEncoder: a nil slice is null. *)
Definition go_array (es : option (list (list Z))) : list Z :=
  match es with None => str "null" | Some es => [91] ++ go_join es ++ [93] end.
(** encoding/json structEncoder: the names are the tags, which need no escaping. *)
Definition go_object (fields : list (list Z * list Z)) : list Z :=
  [123] ++ go_join (map (fun '(k, e) => [34] ++ k ++ [34; 58] ++ e) fields) ++ [125].

(** strconv.FormatInt(n, 10). *)
Fixpoint dec_fuel (f : nat) (n : Z) (acc : list Z) : list Z :=
  match f with
  | O => acc
  | S f' => let acc := (48 + n mod 10) :: acc in if n / 10 =? 0 then acc else dec_fuel f' (n / 10) acc
  end.
Definition dec_nat (n : Z) : list Z := dec_fuel (Z.to_nat (Z.log2 n + 1)) n [].
Definition format_int (n : Z) : list Z := if n <? 0 then 45 :: dec_nat (- n) else dec_nat n.

(** base64.StdEncoding.EncodeToString. *)
Definition b64_alphabet : list Z := str "ABCDEFGHIJKLMNOPQRSTUVWXYZabcdefghijklmnopqrstuvwxyz0123456789+/".
Definition b64_char (v : Z) : Z := nth (Z.to_nat (v mod 64)) b64_alphabet 0.
Fixpoint b64_encode (s : list Z) : list Z :=
  match s with
  | a :: b :: c :: r => let v := a * 65536 + b * 256 + c in [b64_char (v / 262144); b64_char (v / 4096); b64_char (v / 64); b64_char v] ++ b64_encode r
  | [a; b] => let v := a * 65536 + b * 256 in [b64_char (v / 262144); b64_char (v / 4096); b64_char (v / 64); 61]
  | [a] => let v := a * 65536 in [b64_char (v / 262144); b64_char (v / 4096); 61; 61]
  | [] => []
  end.
