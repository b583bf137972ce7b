(** Model of the parts of Go's standard library (not in /repo) that read JSON text into a structure: json.Unmarshal as used by
    polkadotTransaction/txStruct.go:91-102 and fiiiTransaction/transaction.go:91-97. The text is read by recursive descent instead of
    the table of states of encoding/json/scanner.go; the nesting limit of later versions (10000) is left out. *)
From Coq Require Import String ZArith List Bool.
From Verif Require Import Go Base58Model GoJson.
Import ListNotations.
Open Scope Z_scope.

(** A value; a number is kept as it is written. *)
Inductive jval := VNull | VBool (b : bool) | VNum (lit : list Z) | VStr (s : list Z) | VArr (l : list jval) | VObj (l : list (list Z * jval)).
(** scanner.go isSpace. *)
Definition is_ws (c : Z) : bool := (c =? 32) || (c =? 9) || (c =? 10) || (c =? 13).
Fixpoint skip_ws (s : list Z) : list Z := match s with c :: r => if is_ws c then skip_ws r else s | [] => [] end.
(** decode.go getu4, without the leading \u. *)
Definition u4 (s : list Z) : option (Z * list Z) :=
  match s with
  | a :: b :: c :: d :: r =>
      match hex_val a, hex_val b, hex_val c, hex_val d with Some a, Some b, Some c, Some d => Some (a * 4096 + b * 256 + c * 16 + d, r) | _, _, _, _ => None end
  | _ => None
  end.
Definition esc_u4 (s : list Z) : option (Z * list Z) :=
  match s with x :: y :: r => if (x =? 92) && (y =? 117) then u4 r else None | _ => None end.
Definition short_escape (e : Z) : option Z :=
  if (e =? 34) || (e =? 92) || (e =? 47) then Some e
  else if e =? 98 then Some 8 else if e =? 102 then Some 12 else if e =? 110 then Some 10 else if e =? 114 then Some 13 else if e =? 116 then Some 9
  else None.
Definition emit (c : list Z) (o : option (list Z * list Z)) : option (list Z * list Z) := match o with Some (t, r) => Some (c ++ t, r) | None => None end.
(** decode.go unquoteBytes after the opening quote, with the checks of scanner.go stateInString: control characters are refused,
    invalid UTF-8 and unpaired surrogates become U+FFFD. The fuel is the length of the text. *)
Fixpoint gchars (f : nat) (s : list Z) : option (list Z * list Z) :=
  match f with
  | O => None
  | S f' =>
      match s with
      | [] => None
      | x :: r =>
          if x =? 34 then Some ([], r)
          else if x =? 92 then
            match r with
            | [] => None
            | e :: r1 =>
                if e =? 117 then
                  match u4 r1 with
                  | None => None
                  | Some (u, r2) =>
                      if (55296 <=? u) && (u <? 57344) then
                        match esc_u4 r2 with
                        | Some (v, r3) =>
                            if (u <? 56320) && (56320 <=? v) && (v <? 57344)
                            then emit (utf8_rune ((u - 55296) * 1024 + (v - 56320) + 65536)) (gchars f' r3)
                            else emit (utf8_rune 65533) (gchars f' r2)
                        | None => emit (utf8_rune 65533) (gchars f' r2)
                        end
                      else emit (utf8_rune u) (gchars f' r2)
                  end
                else match short_escape e with Some v => emit [v] (gchars f' r1) | None => None end
            end
          else if x <? 32 then None
          else let '(c, n) := rune_step x r in emit (utf8_rune c) (gchars f' (skipn n r))
      end
  end.
(** scanner.go state1, state0, stateDot, stateE: the text of a number. *)
Definition is_digit (c : Z) : bool := (48 <=? c) && (c <=? 57).
Fixpoint span_digits (s : list Z) : list Z * list Z :=
  match s with c :: r => if is_digit c then let '(a, b) := span_digits r in (c :: a, b) else ([], s) | [] => ([], []) end.
Definition gint (s : list Z) : option (list Z * list Z) :=
  match s with
  | c :: r => if c =? 48 then Some ([48], r) else if is_digit c then Some (span_digits s) else None
  | [] => None
  end.
Definition gfrac (s : list Z) : option (list Z * list Z) :=
  match s with
  | c :: r => if c =? 46 then match span_digits r with ([], _) => None | (ds, r') => Some (46 :: ds, r') end else Some ([], s)
  | [] => Some ([], [])
  end.
Definition gexp (s : list Z) : option (list Z * list Z) :=
  match s with
  | c :: r =>
      if (c =? 101) || (c =? 69) then
        let '(sg, r) := match r with x :: r' => if (x =? 43) || (x =? 45) then ([x], r') else ([], r) | [] => ([], r) end in
        match span_digits r with ([], _) => None | (ds, r') => Some (c :: sg ++ ds, r') end
      else Some ([], s)
  | [] => Some ([], [])
  end.
Definition gnum (s : list Z) : option (list Z * list Z) :=
  let '(sg, s) := match s with x :: r => if x =? 45 then ([45], r) else ([], s) | [] => ([], s) end in
  match gint s with
  | None => None
  | Some (a, s) => match gfrac s with
    | None => None
    | Some (b, s) => match gexp s with None => None | Some (c, s) => Some (sg ++ a ++ b ++ c, s) end
    end
  end.
(** One value at the start of a text, and the rest. *)
Fixpoint gread (f : nat) (s : list Z) {struct f} : option (jval * list Z) :=
  match f with
  | O => None
  | S f' =>
      match skip_ws s with
      | [] => None
      | x :: r =>
          if x =? 34 then match gchars (length r) r with Some (t, rest) => Some (VStr t, rest) | None => None end
          else if x =? 91 then
            match skip_ws r with
            | y :: r' => if y =? 93 then Some (VArr [], r') else match gelems f' r with Some (l, rest) => Some (VArr l, rest) | None => None end
            | [] => None
            end
          else if x =? 123 then
            match skip_ws r with
            | y :: r' => if y =? 125 then Some (VObj [], r') else match gmembers f' r with Some (l, rest) => Some (VObj l, rest) | None => None end
            | [] => None
            end
          else if beq (firstn 4 (x :: r)) (str "null") then Some (VNull, skipn 4 (x :: r))
          else if beq (firstn 4 (x :: r)) (str "true") then Some (VBool true, skipn 4 (x :: r))
          else if beq (firstn 5 (x :: r)) (str "false") then Some (VBool false, skipn 5 (x :: r))
          else match gnum (x :: r) with Some (l, rest) => Some (VNum l, rest) | None => None end
      end
  end
with gelems (f : nat) (s : list Z) {struct f} : option (list jval * list Z) :=
  match f with
  | O => None
  | S f' =>
      match gread f' s with
      | Some (v, r) =>
          match skip_ws r with
          | x :: r => if x =? 93 then Some ([v], r)
                      else if x =? 44 then match gelems f' r with Some (l, rest) => Some (v :: l, rest) | None => None end else None
          | [] => None
          end
      | None => None
      end
  end
with gmembers (f : nat) (s : list Z) {struct f} : option (list (list Z * jval) * list Z) :=
  match f with
  | O => None
  | S f' =>
      match skip_ws s with
      | q :: r0 =>
          if negb (q =? 34) then None else
          match gchars (length r0) r0 with
          | Some (k, r1) =>
              match skip_ws r1 with
              | c :: r1 =>
                  if negb (c =? 58) then None else
                  match gread f' r1 with
                  | Some (v, r) =>
                      match skip_ws r with
                      | x :: r => if x =? 125 then Some ([(k, v)], r)
                                  else if x =? 44 then match gmembers f' r with Some (l, rest) => Some ((k, v) :: l, rest) | None => None end else None
                      | [] => None
                      end
                  | None => None
                  end
              | [] => None
              end
          | None => None
          end
      | [] => None
      end
  end.
(** The whole text. Every second step of the reader takes at least one character, so the fuel is enough. *)
Definition unjson (s : list Z) : option jval :=
  match gread (2 * length s + 2) s with
  | Some (v, r) => match skip_ws r with [] => Some v | _ => None end
  | None => None
  end.

(** ** Putting values into fields *)
(** decode.go literalStore for a string field: null changes nothing, other kinds are an error. *)
Definition to_string (v : jval) (old : list Z) : option (list Z) := match v with VNull => Some old | VStr s => Some s | _ => None end.
(** strconv.ParseUint and ParseInt in base 10 on the text of a number. *)
Definition dec_value (ds : list Z) : option Z :=
  match ds with [] => None | _ => if forallb is_digit ds then Some (fold_left (fun a d => a * 10 + (d - 48)) ds 0) else None end.
Definition parse_uint (bits : Z) (lit : list Z) : option Z :=
  match dec_value lit with Some n => if n <? 2 ^ bits then Some n else None | None => None end.
Definition parse_int (bits : Z) (lit : list Z) : option Z :=
  match lit with
  | c :: r => if c =? 45 then match dec_value r with Some n => if n <=? 2 ^ (bits - 1) then Some (- n) else None | None => None end
              else match dec_value lit with Some n => if n <? 2 ^ (bits - 1) then Some n else None | None => None end
  | [] => None
  end.
(** decode.go literalStore for integer fields. *)
Definition to_uint (bits : Z) (v : jval) (old : Z) : option Z := match v with VNull => Some old | VNum l => parse_uint bits l | _ => None end.
Definition to_int (bits : Z) (v : jval) (old : Z) : option Z := match v with VNull => Some old | VNum l => parse_int bits l | _ => None end.
(** fold.go: names are compared without case; the long s and the Kelvin sign count as s and k. *)
Definition fold_char (c : Z) : Z := if (65 <=? c) && (c <=? 90) then c + 32 else c.
Fixpoint fold_name (k : list Z) : list Z :=
  match k with
  | [] => []
  | a :: r =>
      match r with
      | b :: r1 =>
          if (a =? 197) && (b =? 191) then 115 :: fold_name r1
          else match r1 with
               | c :: r2 => if (a =? 226) && (b =? 132) && (c =? 170) then 107 :: fold_name r2 else fold_char a :: fold_name r
               | [] => fold_char a :: fold_name r
               end
      | [] => [fold_char a]
      end
  end.
(** decode.go object: a member goes to the field with its name, members without a field are skipped. A value of the wrong kind is
    an error (Go reads on and reports it at the end). The names of the fields of one structure differ without case, so that the
    exact match Go looks for first is the only match. *)
Section Fields.
Variable S : Type.
Fixpoint find_field (k : list Z) (fs : list (list Z * (jval -> S -> option S))) : option (jval -> S -> option S) :=
  match fs with [] => None | (n, g) :: r => if beq (fold_name k) (fold_name n) then Some g else find_field k r end.
Fixpoint assign (fs : list (list Z * (jval -> S -> option S))) (ms : list (list Z * jval)) (s : S) : option S :=
  match ms with
  | [] => Some s
  | (k, v) :: r => match find_field k fs with
    | None => assign fs r s
    | Some g => match g v s with Some s' => assign fs r s' | None => None end
    end
  end.
(** A value for a structure that holds [s]: null changes nothing. *)
Definition to_struct (fs : list (list Z * (jval -> S -> option S))) (v : jval) (s : S) : option S :=
  match v with VNull => Some s | VObj ms => assign fs ms s | _ => None end.
(** A slice of structures: its elements, what its array holds after them, and whether it is nil. *)
Record slice : Type := { items : list S; beyond : list S; is_nil : bool }.
Definition nil_slice : slice := {| items := []; beyond := []; is_nil := true |}.
(** decode.go array: an element is read into what the array holds at its place, or into an empty structure where the array ends. *)
Fixpoint to_elems (fs : list (list Z * (jval -> S -> option S))) (zero : S) (l : list jval) (held : list S) : option (list S) :=
  match l with
  | [] => Some []
  | v :: r => match to_struct fs v (hd zero held), to_elems fs zero r (tl held) with Some x, Some t => Some (x :: t) | _, _ => None end
  end.
(** null makes the slice nil, [[]] gives it a new empty array; otherwise the array is kept and filled from its start. *)
Definition to_slice (fs : list (list Z * (jval -> S -> option S))) (zero : S) (v : jval) (s : slice) : option slice :=
  match v with
  | VNull => Some nil_slice
  | VArr [] => Some {| items := []; beyond := []; is_nil := false |}
  | VArr l => option_map (fun x => {| items := x; beyond := skipn (length l) (items s ++ beyond s); is_nil := false |}) (to_elems fs zero l (items s ++ beyond s))
  | _ => None
  end.
End Fields.
Arguments items {S}. Arguments beyond {S}. Arguments is_nil {S}. Arguments nil_slice {S}.
