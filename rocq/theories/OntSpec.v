(** Specification vocabulary for Ontology payloads: the part of the NeoVM that a native contract call uses.
    Structures are references into a heap, so that appending to one is seen through every copy of the reference. *)
From Coq Require Import ZArith List Bool.
From Verif Require Import Go.
Import ListNotations.
Open Scope Z_scope.

Inductive value := B (b : bytes) | I (z : Z) | R (n : nat) | A (l : list value).
Record vm := { st : list value; alt : list value; heap : list (list value) }.
Definition push (v : value) (m : vm) : vm := {| st := v :: st m; alt := alt m; heap := heap m |}.
(** A byte string as a number: little-endian two's complement. *)
Definition tc (b : bytes) : Z := if last b 0 <? 128 then le_num b else le_num b - 256 ^ zlen b.
Definition num (v : value) : option Z := match v with B b => Some (tc b) | I z => Some z | _ => None end.
Fixpoint update {X} (l : list X) (n : nat) (f : X -> X) : list X :=
  match l, n with [], _ => [] | x :: r, O => f x :: r | x :: r, S n' => x :: update r n' f end.
(** The call: service, version, contract, method, arguments, and the heap they refer to. *)
Record call := { c_service : bytes; c_version : Z; c_contract : bytes; c_method : bytes; c_args : value; c_heap : list (list value) }.
(** Push n bytes of the code. *)
Definition take (n : Z) (r : bytes) (k : bytes -> bytes -> option call) : option call :=
  if zlen r <? n then None else k (firstn (Z.to_nat n) r) (skipn (Z.to_nat n) r).
Fixpoint exec (fuel : nat) (code : bytes) (m : vm) : option call :=
  match fuel with
  | O => None
  | S f =>
      match code with
      | [] => None
      | op :: r =>
          if op =? 0x00 then exec f r (push (B []) m)                                               (* PUSH0 *)
          else if (0 <? op) && (op <=? 0x4B) then take op r (fun b r => exec f r (push (B b) m))     (* PUSHBYTES *)
          else if op =? 0x4C then take 1 r (fun n r => take (le_num n) r (fun b r => exec f r (push (B b) m)))   (* PUSHDATA1 *)
          else if op =? 0x4D then take 2 r (fun n r => take (le_num n) r (fun b r => exec f r (push (B b) m)))   (* PUSHDATA2 *)
          else if op =? 0x4E then take 4 r (fun n r => take (le_num n) r (fun b r => exec f r (push (B b) m)))   (* PUSHDATA4 *)
          else if op =? 0x4F then exec f r (push (I (-1)) m)                                         (* PUSHM1 *)
          else if (0x51 <=? op) && (op <=? 0x60) then exec f r (push (I (op - 0x50)) m)              (* PUSH1..PUSH16 *)
          else if op =? 0x6B then                                                                    (* TOALTSTACK *)
            match st m with x :: s => exec f r {| st := s; alt := x :: alt m; heap := heap m |} | [] => None end
          else if op =? 0x6A then                                                                    (* DUPFROMALTSTACK *)
            match alt m with x :: _ => exec f r (push x m) | [] => None end
          else if op =? 0x6C then                                                                    (* FROMALTSTACK *)
            match alt m with x :: a => exec f r {| st := x :: st m; alt := a; heap := heap m |} | [] => None end
          else if op =? 0xC6 then                                                                    (* NEWSTRUCT *)
            match st m with
            | x :: s => match num x with
                        | Some n => exec f r {| st := R (length (heap m)) :: s; alt := alt m; heap := heap m ++ [repeat (I 0) (Z.to_nat n)] |}
                        | None => None
                        end
            | [] => None
            end
          else if op =? 0xC8 then                                                                    (* APPEND *)
            match st m with
            | x :: R n :: s => exec f r {| st := s; alt := alt m; heap := update (heap m) n (fun l => l ++ [x]) |}
            | _ => None
            end
          else if op =? 0xC1 then                                                                    (* PACK *)
            match st m with
            | x :: s => match num x with
                        | Some n => if zlen s <? n then None else exec f r {| st := A (firstn (Z.to_nat n) s) :: skipn (Z.to_nat n) s; alt := alt m; heap := heap m |}
                        | None => None
                        end
            | [] => None
            end
          else if op =? 0x68 then                                                                    (* SYSCALL, the last instruction *)
            match r, st m with
            | n :: name, v :: B c :: B me :: args :: _ =>
                match num v with
                | Some ver => if zlen name =? n then Some {| c_service := name; c_version := ver; c_contract := c; c_method := me; c_args := args; c_heap := heap m |} else None
                | None => None
                end
            | _, _ => None
            end
          else None
      end
  end.
Definition run (code : bytes) : option call := exec (length code) code {| st := []; alt := []; heap := [] |}.
(** The code is one instruction that pushes the value. *)
Definition pushes (code : bytes) (v : value) : Prop := forall f rest m, exec (S f) (code ++ rest) m = exec f rest (push v m).
