(** Model of addressEncoder/blake256: BLAKE-256 and BLAKE-224, streaming interface and compression function. *)
From Coq Require Import ZArith List Bool.
From Verif Require Import Go.
Import ListNotations.
Open Scope Z_scope.

(** 32-bit operations of blake256block.go. *)
Definition add32 (a b : Z) : Z := (a + b) mod 2 ^ 32.
(** v<<(32-n) | v>>n. *)
Definition rot32 (v n : Z) : Z := Z.lor (Z.shiftl v (32 - n) mod 2 ^ 32) (Z.shiftr v n).
(** uint32(p[0])<<24 | uint32(p[1])<<16 | uint32(p[2])<<8 | uint32(p[3]). *)
Definition word (a b c d : Z) : Z := Z.lor (Z.lor (Z.lor (Z.shiftl a 24) (Z.shiftl b 16)) (Z.shiftl c 8)) d.
Definition get (v : list Z) (i : nat) : Z := nth i v 0.
Definition set (v : list Z) (i : nat) (x : Z) : list Z := firstn i v ++ x :: skipn (S i) v.
(** blake256block.go:14-31. *)
Definition csts : list Z :=
  [0x243F6A88; 0x85A308D3; 0x13198A2E; 0x03707344; 0xA4093822; 0x299F31D0; 0x082EFA98; 0xEC4E6C89;
   0x452821E6; 0x38D01377; 0xBE5466CF; 0x34E90C6C; 0xC0AC29B7; 0xC97C50DD; 0x3F84D5B5; 0xB5470917].
(** blake256.go:37-44. *)
Definition iv256 : list Z := [0x6A09E667; 0xBB67AE85; 0x3C6EF372; 0xA54FF53A; 0x510E527F; 0x9B05688C; 0x1F83D9AB; 0x5BE0CD19].
Definition iv224 : list Z := [0xC1059ED8; 0x367CD507; 0x3070DD17; 0xF70E5939; 0xFFC00B31; 0x68581511; 0x64F98FA7; 0xBEFA4FA4].

(** The 1568 lines 74-1655 of blake256block.go are 224 groups of seven lines of the form
      va += m[i] ^ cstj; va += vb; vd ^= va; vd = rotate(vd, r1); vc += vd; vb ^= vc; vb = rotate(vb, r2)
    written mk a b c d i j r1 r2 below, in the order of the file (the table was produced from the file by a script that
    matches each line). *)
Record ins := mk { g_a : nat; g_b : nat; g_c : nat; g_d : nat; g_m : nat; g_k : nat; g_r1 : Z; g_r2 : Z }.
Definition exec (m : list Z) (v : list Z) (g : ins) : list Z :=
  let v := set v (g_a g) (add32 (get v (g_a g)) (Z.lxor (get m (g_m g)) (get csts (g_k g)))) in
  let v := set v (g_a g) (add32 (get v (g_a g)) (get v (g_b g))) in
  let v := set v (g_d g) (Z.lxor (get v (g_d g)) (get v (g_a g))) in
  let v := set v (g_d g) (rot32 (get v (g_d g)) (g_r1 g)) in
  let v := set v (g_c g) (add32 (get v (g_c g)) (get v (g_d g))) in
  let v := set v (g_b g) (Z.lxor (get v (g_b g)) (get v (g_c g))) in
  set v (g_b g) (rot32 (get v (g_b g)) (g_r2 g)).
Definition code : list ins := [
  (* round 1, lines 74-185 *)
  mk 0 4 8 12 0 1 16 12; mk 1 5 9 13 2 3 16 12; mk 2 6 10 14 4 5 16 12; mk 3 7 11 15 6 7 16 12; mk 2 6 10 14 5 4 8 7; mk 3 7 11 15 7 6 8 7; mk 1 5 9 13 3 2 8 7; mk 0 4 8 12 1 0 8 7;
  mk 0 5 10 15 8 9 16 12; mk 1 6 11 12 10 11 16 12; mk 2 7 8 13 12 13 16 12; mk 3 4 9 14 14 15 16 12; mk 2 7 8 13 13 12 8 7; mk 3 4 9 14 15 14 8 7; mk 1 6 11 12 11 10 8 7; mk 0 5 10 15 9 8 8 7;
  (* round 2, lines 188-299 *)
  mk 0 4 8 12 14 10 16 12; mk 1 5 9 13 4 8 16 12; mk 2 6 10 14 9 15 16 12; mk 3 7 11 15 13 6 16 12; mk 2 6 10 14 15 9 8 7; mk 3 7 11 15 6 13 8 7; mk 1 5 9 13 8 4 8 7; mk 0 4 8 12 10 14 8 7;
  mk 0 5 10 15 1 12 16 12; mk 1 6 11 12 0 2 16 12; mk 2 7 8 13 11 7 16 12; mk 3 4 9 14 5 3 16 12; mk 2 7 8 13 7 11 8 7; mk 3 4 9 14 3 5 8 7; mk 1 6 11 12 2 0 8 7; mk 0 5 10 15 12 1 8 7;
  (* round 3, lines 302-413 *)
  mk 0 4 8 12 11 8 16 12; mk 1 5 9 13 12 0 16 12; mk 2 6 10 14 5 2 16 12; mk 3 7 11 15 15 13 16 12; mk 2 6 10 14 2 5 8 7; mk 3 7 11 15 13 15 8 7; mk 1 5 9 13 0 12 8 7; mk 0 4 8 12 8 11 8 7;
  mk 0 5 10 15 10 14 16 12; mk 1 6 11 12 3 6 16 12; mk 2 7 8 13 7 1 16 12; mk 3 4 9 14 9 4 16 12; mk 2 7 8 13 1 7 8 7; mk 3 4 9 14 4 9 8 7; mk 1 6 11 12 6 3 8 7; mk 0 5 10 15 14 10 8 7;
  (* round 4, lines 416-527 *)
  mk 0 4 8 12 7 9 16 12; mk 1 5 9 13 3 1 16 12; mk 2 6 10 14 13 12 16 12; mk 3 7 11 15 11 14 16 12; mk 2 6 10 14 12 13 8 7; mk 3 7 11 15 14 11 8 7; mk 1 5 9 13 1 3 8 7; mk 0 4 8 12 9 7 8 7;
  mk 0 5 10 15 2 6 16 12; mk 1 6 11 12 5 10 16 12; mk 2 7 8 13 4 0 16 12; mk 3 4 9 14 15 8 16 12; mk 2 7 8 13 0 4 8 7; mk 3 4 9 14 8 15 8 7; mk 1 6 11 12 10 5 8 7; mk 0 5 10 15 6 2 8 7;
  (* round 5, lines 530-641 *)
  mk 0 4 8 12 9 0 16 12; mk 1 5 9 13 5 7 16 12; mk 2 6 10 14 2 4 16 12; mk 3 7 11 15 10 15 16 12; mk 2 6 10 14 4 2 8 7; mk 3 7 11 15 15 10 8 7; mk 1 5 9 13 7 5 8 7; mk 0 4 8 12 0 9 8 7;
  mk 0 5 10 15 14 1 16 12; mk 1 6 11 12 11 12 16 12; mk 2 7 8 13 6 8 16 12; mk 3 4 9 14 3 13 16 12; mk 2 7 8 13 8 6 8 7; mk 3 4 9 14 13 3 8 7; mk 1 6 11 12 12 11 8 7; mk 0 5 10 15 1 14 8 7;
  (* round 6, lines 644-755 *)
  mk 0 4 8 12 2 12 16 12; mk 1 5 9 13 6 10 16 12; mk 2 6 10 14 0 11 16 12; mk 3 7 11 15 8 3 16 12; mk 2 6 10 14 11 0 8 7; mk 3 7 11 15 3 8 8 7; mk 1 5 9 13 10 6 8 7; mk 0 4 8 12 12 2 8 7;
  mk 0 5 10 15 4 13 16 12; mk 1 6 11 12 7 5 16 12; mk 2 7 8 13 15 14 16 12; mk 3 4 9 14 1 9 16 12; mk 2 7 8 13 14 15 8 7; mk 3 4 9 14 9 1 8 7; mk 1 6 11 12 5 7 8 7; mk 0 5 10 15 13 4 8 7;
  (* round 7, lines 758-869 *)
  mk 0 4 8 12 12 5 16 12; mk 1 5 9 13 1 15 16 12; mk 2 6 10 14 14 13 16 12; mk 3 7 11 15 4 10 16 12; mk 2 6 10 14 13 14 8 7; mk 3 7 11 15 10 4 8 7; mk 1 5 9 13 15 1 8 7; mk 0 4 8 12 5 12 8 7;
  mk 0 5 10 15 0 7 16 12; mk 1 6 11 12 6 3 16 12; mk 2 7 8 13 9 2 16 12; mk 3 4 9 14 8 11 16 12; mk 2 7 8 13 2 9 8 7; mk 3 4 9 14 11 8 8 7; mk 1 6 11 12 3 6 8 7; mk 0 5 10 15 7 0 8 7;
  (* round 8, lines 872-983 *)
  mk 0 4 8 12 13 11 16 12; mk 1 5 9 13 7 14 16 12; mk 2 6 10 14 12 1 16 12; mk 3 7 11 15 3 9 16 12; mk 2 6 10 14 1 12 8 7; mk 3 7 11 15 9 3 8 7; mk 1 5 9 13 14 7 8 7; mk 0 4 8 12 11 13 8 7;
  mk 0 5 10 15 5 0 16 12; mk 1 6 11 12 15 4 16 12; mk 2 7 8 13 8 6 16 12; mk 3 4 9 14 2 10 16 12; mk 2 7 8 13 6 8 8 7; mk 3 4 9 14 10 2 8 7; mk 1 6 11 12 4 15 8 7; mk 0 5 10 15 0 5 8 7;
  (* round 9, lines 986-1097 *)
  mk 0 4 8 12 6 15 16 12; mk 1 5 9 13 14 9 16 12; mk 2 6 10 14 11 3 16 12; mk 3 7 11 15 0 8 16 12; mk 2 6 10 14 3 11 8 7; mk 3 7 11 15 8 0 8 7; mk 1 5 9 13 9 14 8 7; mk 0 4 8 12 15 6 8 7;
  mk 0 5 10 15 12 2 16 12; mk 1 6 11 12 13 7 16 12; mk 2 7 8 13 1 4 16 12; mk 3 4 9 14 10 5 16 12; mk 2 7 8 13 4 1 8 7; mk 3 4 9 14 5 10 8 7; mk 1 6 11 12 7 13 8 7; mk 0 5 10 15 2 12 8 7;
  (* round 10, lines 1100-1211 *)
  mk 0 4 8 12 10 2 16 12; mk 1 5 9 13 8 4 16 12; mk 2 6 10 14 7 6 16 12; mk 3 7 11 15 1 5 16 12; mk 2 6 10 14 6 7 8 7; mk 3 7 11 15 5 1 8 7; mk 1 5 9 13 4 8 8 7; mk 0 4 8 12 2 10 8 7;
  mk 0 5 10 15 15 11 16 12; mk 1 6 11 12 9 14 16 12; mk 2 7 8 13 3 12 16 12; mk 3 4 9 14 13 0 16 12; mk 2 7 8 13 12 3 8 7; mk 3 4 9 14 0 13 8 7; mk 1 6 11 12 14 9 8 7; mk 0 5 10 15 11 15 8 7;
  (* round 11, lines 1214-1325 *)
  mk 0 4 8 12 0 1 16 12; mk 1 5 9 13 2 3 16 12; mk 2 6 10 14 4 5 16 12; mk 3 7 11 15 6 7 16 12; mk 2 6 10 14 5 4 8 7; mk 3 7 11 15 7 6 8 7; mk 1 5 9 13 3 2 8 7; mk 0 4 8 12 1 0 8 7;
  mk 0 5 10 15 8 9 16 12; mk 1 6 11 12 10 11 16 12; mk 2 7 8 13 12 13 16 12; mk 3 4 9 14 14 15 16 12; mk 2 7 8 13 13 12 8 7; mk 3 4 9 14 15 14 8 7; mk 1 6 11 12 11 10 8 7; mk 0 5 10 15 9 8 8 7;
  (* round 12, lines 1328-1439 *)
  mk 0 4 8 12 14 10 16 12; mk 1 5 9 13 4 8 16 12; mk 2 6 10 14 9 15 16 12; mk 3 7 11 15 13 6 16 12; mk 2 6 10 14 15 9 8 7; mk 3 7 11 15 6 13 8 7; mk 1 5 9 13 8 4 8 7; mk 0 4 8 12 10 14 8 7;
  mk 0 5 10 15 1 12 16 12; mk 1 6 11 12 0 2 16 12; mk 2 7 8 13 11 7 16 12; mk 3 4 9 14 5 3 16 12; mk 2 7 8 13 7 11 8 7; mk 3 4 9 14 3 5 8 7; mk 1 6 11 12 2 0 8 7; mk 0 5 10 15 12 1 8 7;
  (* round 13, lines 1442-1553 *)
  mk 0 4 8 12 11 8 16 12; mk 1 5 9 13 12 0 16 12; mk 2 6 10 14 5 2 16 12; mk 3 7 11 15 15 13 16 12; mk 2 6 10 14 2 5 8 7; mk 3 7 11 15 13 15 8 7; mk 1 5 9 13 0 12 8 7; mk 0 4 8 12 8 11 8 7;
  mk 0 5 10 15 10 14 16 12; mk 1 6 11 12 3 6 16 12; mk 2 7 8 13 7 1 16 12; mk 3 4 9 14 9 4 16 12; mk 2 7 8 13 1 7 8 7; mk 3 4 9 14 4 9 8 7; mk 1 6 11 12 6 3 8 7; mk 0 5 10 15 14 10 8 7;
  (* round 14, lines 1556-1667 *)
  mk 0 4 8 12 7 9 16 12; mk 1 5 9 13 3 1 16 12; mk 2 6 10 14 13 12 16 12; mk 3 7 11 15 11 14 16 12; mk 2 6 10 14 12 13 8 7; mk 3 7 11 15 14 11 8 7; mk 1 5 9 13 1 3 8 7; mk 0 4 8 12 9 7 8 7;
  mk 0 5 10 15 2 6 16 12; mk 1 6 11 12 5 10 16 12; mk 2 7 8 13 4 0 16 12; mk 3 4 9 14 15 8 16 12; mk 2 7 8 13 0 4 8 7; mk 3 4 9 14 8 15 8 7; mk 1 6 11 12 10 5 8 7; mk 0 5 10 15 6 2 8 7].

(** blake256.go:23-31 digest; nx is never negative. *)
Record digest := { d_size : Z; d_h : list Z; d_s : list Z; d_t : Z; d_nullt : bool; d_x : list Z; d_nx : nat }.
Definition with_ht (d : digest) (h : list Z) (t : Z) : digest := {| d_size := d_size d; d_h := h; d_s := d_s d; d_t := t; d_nullt := d_nullt d; d_x := d_x d; d_nx := d_nx d |}.
Definition with_x (d : digest) (x : list Z) (nx : nat) : digest := {| d_size := d_size d; d_h := d_h d; d_s := d_s d; d_t := d_t d; d_nullt := d_nullt d; d_x := x; d_nx := nx |}.
Definition with_nx (d : digest) (nx : nat) : digest := with_x d (d_x d) nx.
(** d.t -= k. *)
Definition less_t (d : digest) (k : Z) : digest := with_ht d (d_h d) ((d_t d - k) mod 2 ^ 64).
Definition with_null (d : digest) : digest := {| d_size := d_size d; d_h := d_h d; d_s := d_s d; d_t := d_t d; d_nullt := true; d_x := d_x d; d_nx := d_nx d |}.
(** blake256block.go:55-71, the message words. *)
Definition words (p : list Z) : list Z :=
  map (fun i => word (get p (4 * i)) (get p (4 * i + 1)) (get p (4 * i + 2)) (get p (4 * i + 3))) (seq 0 16).
(** blake256block.go:37-1676, one round of the loop: the new chain value. *)
Definition compress (h s : list Z) (t : Z) (nullt : bool) (p : list Z) : list Z :=
  let lo := if nullt then 0 else t mod 2 ^ 32 in
  let hi := if nullt then 0 else Z.shiftr t 32 mod 2 ^ 32 in
  let v := h ++ [Z.lxor (get csts 0) (get s 0); Z.lxor (get csts 1) (get s 1); Z.lxor (get csts 2) (get s 2); Z.lxor (get csts 3) (get s 3);
    (if nullt then get csts 4 else Z.lxor (get csts 4) lo); (if nullt then get csts 5 else Z.lxor (get csts 5) lo);
    (if nullt then get csts 6 else Z.lxor (get csts 6) hi); (if nullt then get csts 7 else Z.lxor (get csts 7) hi)] in
  let v := fold_left (exec (words p)) code v in
  map (fun i => Z.lxor (get h i) (Z.lxor (Z.lxor (get v i) (get v (i + 8))) (get s (i mod 4)))) (seq 0 8).
(** blake256block.go:33-1679 block; the number of rounds of the loop is at most the number of bytes. *)
Fixpoint block_loop (fuel : nat) (d : digest) (p : list Z) : digest :=
  match fuel with
  | O => d
  | S n => if (64 <=? length p)%nat then
      let t := (d_t d + 512) mod 2 ^ 64 in
      block_loop n (with_ht d (compress (d_h d) (d_s d) t (d_nullt d) p) t) (skipn 64 p)
    else d
  end.
Definition block (d : digest) (p : list Z) : digest := block_loop (length p) d p.
(** copy(x[at:], p), with the number of bytes copied. *)
Definition copy_at (x : list Z) (at_ : nat) (p : list Z) : list Z * nat :=
  let n := Nat.min (length x - at_) (length p) in (firstn at_ x ++ firstn n p ++ skipn (at_ + n) x, n).
(** blake256.go:64-88 Write (len(p) &^ 63 is written as len(p) / 64 * 64). *)
Definition write (d : digest) (p : list Z) : digest :=
  let '(d, p) := if (0 <? d_nx d)%nat then
      let n := if (64 - d_nx d <? length p)%nat then (64 - d_nx d)%nat else length p in
      let '(x, k) := copy_at (d_x d) (d_nx d) p in
      let d := with_x d x (d_nx d + k) in
      ((if (d_nx d =? 64)%nat then with_nx (block d (d_x d)) 0 else d), skipn n p)
    else (d, p) in
  let '(d, p) := if (64 <=? length p)%nat then
      let n := (length p / 64 * 64)%nat in (block d (firstn n p), skipn n p)
    else (d, p) in
  if (0 <? length p)%nat then let '(x, k) := copy_at (d_x d) 0 p in with_x d x k else d.
(** blake256.go:43 pad. *)
Definition pad : list Z := 0x80 :: zeros 63.
(** blake256.go:91-151 Sum(nil): the padding, then the chain value. *)
Definition sum (d : digest) : list Z :=
  let nx := Z.of_nat (d_nx d) in
  let l := (d_t d + nx * 8) mod 2 ^ 64 in
  let len := be_bytes 8 l in
  let d := if (d_nx d =? 55)%nat then
      let d := less_t d 8 in
      if d_size d =? 224 then write d [0x80] else write d [0x81]
    else
      let d := if (d_nx d <? 55)%nat then
          let d := if (d_nx d =? 0)%nat then with_null d else d in
          let d := less_t d (440 - nx * 8) in
          write d (firstn (55 - d_nx d) pad)
        else
          let d := less_t d (512 - nx * 8) in
          let d := write d (firstn (64 - d_nx d) pad) in
          let d := less_t d 440 in
          let d := write d (firstn 55 (skipn 1 pad)) in
          with_null d in
      let d := if d_size d =? 224 then write d [0x00] else write d [0x01] in
      less_t d 8 in
  let d := less_t d 64 in
  let d := write d len in
  flat_map (fun s => be_bytes 4 s) (firstn (Z.to_nat (Z.shiftr (d_size d) 5)) (d_h d)).
(** blake256.go:47-57 Reset. *)
Definition reset (d : digest) : digest :=
  {| d_size := d_size d; d_h := if d_size d =? 224 then iv224 else iv256; d_s := d_s d; d_t := 0; d_nullt := false; d_x := d_x d; d_nx := 0 |}.
(** blake256.go:153-161 setSalt. *)
Definition set_salt (d : digest) (s : list Z) : res digest :=
  if negb (length s =? 16)%nat then Panic else
  Ok {| d_size := d_size d; d_h := d_h d; d_s := map (fun i => word (get s (4 * i)) (get s (4 * i + 1)) (get s (4 * i + 2)) (get s (4 * i + 3))) (seq 0 4);
        d_t := d_t d; d_nullt := d_nullt d; d_x := d_x d; d_nx := d_nx d |}.
(** blake256.go:164-194 New, New224, NewSalt, New224Salt. *)
Definition new256 : digest := {| d_size := 256; d_h := iv256; d_s := [0; 0; 0; 0]; d_t := 0; d_nullt := false; d_x := zeros 64; d_nx := 0 |}.
Definition new224 : digest := {| d_size := 224; d_h := iv224; d_s := [0; 0; 0; 0]; d_t := 0; d_nullt := false; d_x := zeros 64; d_nx := 0 |}.
Definition new_salt (size : Z) (salt : list Z) : res digest := set_salt (if size =? 224 then new224 else new256) salt.
(** blake256.go:196-204 DoubleBlake256. *)
Definition double_blake256 (data : list Z) : list Z := sum (write new256 (sum (write new256 data))).
