(** Prelude: the fragment of Go's run-time behaviour used by the models.
    Nothing in this file models a particular function of /repo; it models the
    Go language and standard-library pieces that the repository calls. *)
From Coq Require Import ZArith List Bool.
Import ListNotations.
Open Scope Z_scope.

(** Outcome of a Go call that returns (value, error) and may panic.
    The text of an error is dropped. *)
Inductive res (A : Type) : Type :=
| Ok (a : A)
| Err
| Panic.
Arguments Ok {A} a.
Arguments Err {A}.
Arguments Panic {A}.

Definition bind {A B} (m : res A) (k : A -> res B) : res B :=
  match m with Ok a => k a | Err => Err | Panic => Panic end.

Notation "x <- m ;; k" := (bind m (fun x => k))
  (at level 61, m at next level, right associativity).
Notation "' p <- m ;; k" := (bind m (fun p => k))
  (at level 61, p pattern, m at next level, right associativity).

(** A Go [if cond { return err }]. *)
Definition err_if {A} (c : bool) (k : res A) : res A := if c then Err else k.

(** []byte: list of integers 0..255. Runes and bytes share the type [Z]. *)
Definition bytes := list Z.
Definition is_byte (b : Z) : Prop := 0 <= b < 256.
Definition is_bytes (l : bytes) : Prop := Forall is_byte l.
Definition is_byteb (b : Z) : bool := (0 <=? b) && (b <? 256).

(** len(x) as a Go int. *)
Definition zlen {A} (l : list A) : Z := Z.of_nat (length l).

(** Fixed width conversions. *)
Definition u8 (x : Z) : Z := x mod 2 ^ 8.
Definition u16 (x : Z) : Z := x mod 2 ^ 16.
Definition u32 (x : Z) : Z := x mod 2 ^ 32.
Definition u64 (x : Z) : Z := x mod 2 ^ 64.
(** conversion to int64 (two's complement) *)
Definition s64 (x : Z) : Z := (x + 2 ^ 63) mod 2 ^ 64 - 2 ^ 63.

(** a[i] : panics when out of range. *)
Definition idx {A} (l : list A) (i : Z) : res A :=
  if (i <? 0) then Panic
  else match nth_error l (Z.to_nat i) with Some x => Ok x | None => Panic end.

(** a[i:j] : panics unless 0 <= i <= j <= len(a).
    Simplification: Go bounds j by cap(a), not len(a); the models treat a slice
    expression that reaches beyond len(a) as a panic. *)
Definition slice {A} (l : list A) (i j : Z) : res (list A) :=
  if (0 <=? i) && (i <=? j) && (j <=? zlen l)
  then Ok (firstn (Z.to_nat (j - i)) (skipn (Z.to_nat i) l))
  else Panic.
Definition slice_to {A} (l : list A) (j : Z) : res (list A) := slice l 0 j.
Definition slice_from {A} (l : list A) (i : Z) : res (list A) := slice l i (zlen l).

(** make([]byte, n) : panics for negative n. *)
Definition zeros (n : nat) : bytes := repeat 0 n.
Definition make_bytes (n : Z) : res bytes :=
  if n <? 0 then Panic else Ok (zeros (Z.to_nat n)).

(** Equality of byte strings / strings. *)
Fixpoint beq (a b : list Z) : bool :=
  match a, b with
  | [], [] => true
  | x :: a', y :: b' => (x =? y) && beq a' b'
  | _, _ => false
  end.

(** Big-endian number of a byte string: new(big.Int).SetBytes. *)
Definition be_num (l : bytes) : Z := fold_left (fun acc b => acc * 256 + b) l 0.
(** Little-endian number. *)
Fixpoint le_num (l : bytes) : Z :=
  match l with [] => 0 | b :: r => b + 256 * le_num r end.

(** n little-endian bytes of x: binary.LittleEndian.PutUintXX (x reduced mod 256^n). *)
Fixpoint le_bytes (n : nat) (x : Z) : bytes :=
  match n with O => [] | S n' => x mod 256 :: le_bytes n' (x / 256) end.
(** n big-endian bytes of x: binary.BigEndian.PutUintXX. *)
Definition be_bytes (n : nat) (x : Z) : bytes := rev (le_bytes n x).

(** Drop leading zero bytes. *)
Fixpoint strip0 (l : bytes) : bytes :=
  match l with
  | 0 :: r => strip0 r
  | _ => l
  end.
(** number of leading zeros *)
Fixpoint lead0 (l : bytes) : nat :=
  match l with
  | 0 :: r => S (lead0 r)
  | _ => O
  end.

(** (big.Int).Bytes(): minimal big-endian bytes of |x|; least significant
    first helper with fuel = number of bits (always enough). *)
Fixpoint min_le_fuel (f : nat) (x : Z) : bytes :=
  match f with
  | O => []
  | S f' => if x =? 0 then [] else x mod 256 :: min_le_fuel f' (x / 256)
  end.
Definition big_bytes (x : Z) : bytes :=
  let a := Z.abs x in
  rev (min_le_fuel (Z.to_nat (Z.log2 a + 1)) a).

(** encoding/hex. *)
Definition hex_digit (v : Z) : Z := if v <? 10 then 48 + v else 87 + v.
Definition hex_encode (l : bytes) : list Z :=
  flat_map (fun b => [hex_digit (b / 16); hex_digit (b mod 16)]) l.
Definition hex_val (c : Z) : option Z :=
  if (48 <=? c) && (c <=? 57) then Some (c - 48)
  else if (97 <=? c) && (c <=? 102) then Some (c - 87)
  else if (65 <=? c) && (c <=? 70) then Some (c - 55)
  else None.
(** hex.DecodeString; the error case carries no partial result. *)
Fixpoint hex_decode (s : list Z) : res bytes :=
  match s with
  | [] => Ok []
  | [_] => Err
  | a :: b :: r =>
      match hex_val a, hex_val b with
      | Some x, Some y => t <- hex_decode r ;; Ok (x * 16 + y :: t)
      | _, _ => Err
      end
  end.

(** []rune(s): UTF-8 decoding with U+FFFD for every invalid byte. *)
Definition cont (b : Z) : bool := (128 <=? b) && (b <=? 191).
Fixpoint runes_fuel (f : nat) (s : list Z) : list Z :=
  match f with
  | O => []
  | S f' =>
    match s with
    | [] => []
    | b0 :: r =>
      if b0 <? 128 then b0 :: runes_fuel f' r
      else if (194 <=? b0) && (b0 <=? 223) then
        match r with
        | b1 :: r1 => if cont b1
                      then ((b0 - 192) * 64 + (b1 - 128)) :: runes_fuel f' r1
                      else 65533 :: runes_fuel f' r
        | _ => 65533 :: runes_fuel f' r
        end
      else if (224 <=? b0) && (b0 <=? 239) then
        match r with
        | b1 :: b2 :: r2 =>
          let lo := if b0 =? 224 then 160 else 128 in
          let hi := if b0 =? 237 then 159 else 191 in
          if (lo <=? b1) && (b1 <=? hi) && cont b2
          then ((b0 - 224) * 4096 + (b1 - 128) * 64 + (b2 - 128)) :: runes_fuel f' r2
          else 65533 :: runes_fuel f' r
        | _ => 65533 :: runes_fuel f' r
        end
      else if (240 <=? b0) && (b0 <=? 244) then
        match r with
        | b1 :: b2 :: b3 :: r3 =>
          let lo := if b0 =? 240 then 144 else 128 in
          let hi := if b0 =? 244 then 143 else 191 in
          if (lo <=? b1) && (b1 <=? hi) && cont b2 && cont b3
          then ((b0 - 240) * 262144 + (b1 - 128) * 4096 + (b2 - 128) * 64 + (b3 - 128))
                 :: runes_fuel f' r3
          else 65533 :: runes_fuel f' r
        | _ => 65533 :: runes_fuel f' r
        end
      else 65533 :: runes_fuel f' r
    end
  end.
Definition runes (s : list Z) : list Z := runes_fuel (length s) s.

(** ASCII strings. *)
Definition is_ascii (s : list Z) : Prop := Forall (fun c => 0 <= c < 128) s.

(** Helper to write string literals in models and examples: the byte list of
    a Coq string literal. *)
From Coq Require Import String Ascii.
Fixpoint str (s : string) : list Z :=
  match s with
  | EmptyString => []
  | String c s' => Z.of_N (N_of_ascii c) :: str s'
  end.
Arguments str s%string_scope.
