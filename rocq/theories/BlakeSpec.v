(** BLAKE-256 and BLAKE-224 as defined by their authors (SHA-3 proposal BLAKE, section 2.1). *)
From Coq Require Import ZArith List Bool.
From Verif Require Import Go.
Import ListNotations.
Open Scope Z_scope.

(** Rotation of a 32-bit word to the right. *)
Definition ror (x n : Z) : Z := x / 2 ^ n + x mod 2 ^ n * 2 ^ (32 - n).
(** First digits of pi. *)
Definition pi_words : list Z :=
  [0x243F6A88; 0x85A308D3; 0x13198A2E; 0x03707344; 0xA4093822; 0x299F31D0; 0x082EFA98; 0xEC4E6C89;
   0x452821E6; 0x38D01377; 0xBE5466CF; 0x34E90C6C; 0xC0AC29B7; 0xC97C50DD; 0x3F84D5B5; 0xB5470917].
(** The ten permutations. *)
Definition sigma : list (list nat) := [
  [0; 1; 2; 3; 4; 5; 6; 7; 8; 9; 10; 11; 12; 13; 14; 15];
  [14; 10; 4; 8; 9; 15; 13; 6; 1; 12; 0; 2; 11; 7; 5; 3];
  [11; 8; 12; 0; 5; 2; 15; 13; 10; 14; 3; 6; 7; 1; 9; 4];
  [7; 9; 3; 1; 13; 12; 11; 14; 2; 6; 5; 10; 4; 0; 15; 8];
  [9; 0; 5; 7; 2; 4; 10; 15; 14; 1; 11; 12; 6; 8; 3; 13];
  [2; 12; 6; 10; 0; 11; 8; 3; 4; 13; 7; 5; 15; 14; 1; 9];
  [12; 5; 1; 15; 14; 13; 4; 10; 0; 7; 6; 3; 9; 2; 8; 11];
  [13; 11; 7; 14; 12; 1; 3; 9; 5; 0; 15; 4; 8; 6; 2; 10];
  [6; 15; 14; 9; 11; 3; 0; 8; 12; 2; 13; 7; 1; 4; 10; 5];
  [10; 2; 8; 4; 7; 6; 1; 5; 15; 11; 9; 14; 3; 12; 13; 0]]%nat.
Definition perm (r j : nat) : nat := nth j (nth (r mod 10) sigma []) 0%nat.
(** Half of the function G, with the word x added and rotations by r1 and r2. *)
Definition half (x r1 r2 : Z) (q : Z * Z * Z * Z) : Z * Z * Z * Z :=
  let '(a, b, c, d) := q in
  let a := (a + b + x) mod 2 ^ 32 in
  let d := ror (Z.lxor d a) r1 in
  let c := (c + d) mod 2 ^ 32 in
  let b := ror (Z.lxor b c) r2 in
  (a, b, c, d).
(** G_i in round r. *)
Definition mix (m : list Z) (r j k : nat) : Z := Z.lxor (nth (perm r j) m 0) (nth (perm r k) pi_words 0).
Definition G (m : list Z) (r i : nat) (q : Z * Z * Z * Z) : Z * Z * Z * Z :=
  half (mix m r (2 * i + 1) (2 * i)) 8 7 (half (mix m r (2 * i) (2 * i + 1)) 16 12 q).
(** Apply f to the words a, b, c, d of v. *)
Definition put (v : list Z) (i : nat) (x : Z) : list Z := firstn i v ++ x :: skipn (S i) v.
Definition on (a b c d : nat) (f : Z * Z * Z * Z -> Z * Z * Z * Z) (v : list Z) : list Z :=
  let '(x, y, z, w) := f (nth a v 0, nth b v 0, nth c v 0, nth d v 0) in put (put (put (put v a x) b y) c z) d w.
(** A round: columns, then diagonals. *)
Definition round (m : list Z) (v : list Z) (r : nat) : list Z :=
  let v := on 0 4 8 12 (G m r 0) v in let v := on 1 5 9 13 (G m r 1) v in let v := on 2 6 10 14 (G m r 2) v in let v := on 3 7 11 15 (G m r 3) v in
  let v := on 0 5 10 15 (G m r 4) v in let v := on 1 6 11 12 (G m r 5) v in let v := on 2 7 8 13 (G m r 6) v in on 3 4 9 14 (G m r 7) v.
(** The compression function: chain value h, salt s, counter t, 64-byte block. *)
Definition block_words (p : bytes) : list Z := map (fun i => be_num (firstn 4 (skipn (4 * i) p))) (seq 0 16).
Definition blake_compress (h s : list Z) (t : Z) (p : bytes) : list Z :=
  let t0 := t mod 2 ^ 32 in let t1 := t / 2 ^ 32 in
  let k := fun i => nth i pi_words 0 in
  let v := h ++ [Z.lxor (nth 0 s 0) (k 0%nat); Z.lxor (nth 1 s 0) (k 1%nat); Z.lxor (nth 2 s 0) (k 2%nat); Z.lxor (nth 3 s 0) (k 3%nat);
                 Z.lxor t0 (k 4%nat); Z.lxor t0 (k 5%nat); Z.lxor t1 (k 6%nat); Z.lxor t1 (k 7%nat)] in
  let v := fold_left (round (block_words p)) (seq 0 14) v in
  map (fun i => Z.lxor (Z.lxor (Z.lxor (nth i h 0) (nth (i mod 4) s 0)) (nth i v 0)) (nth (i + 8) v 0)) (seq 0 8).
(** Padding: a bit 1, bits 0 up to 447 modulo 512, a bit e (1 for BLAKE-256, 0 for BLAKE-224), the 64-bit length. *)
Definition padding (e : Z) (len : Z) : bytes :=
  let k := (55 - len) mod 64 in
  (if k =? 0 then [0x80 + e] else 0x80 :: zeros (Z.to_nat (k - 1)) ++ [e]) ++ be_bytes 8 (8 * len mod 2 ^ 64).
(** Counter of block i: the number of message bits up to its end, or 0 if it holds no message bit. *)
Definition counter (len : Z) (i : Z) : Z := if 64 * i <? len then Z.min (8 * len) (512 * (i + 1)) mod 2 ^ 64 else 0.
Fixpoint chain (s : list Z) (len : Z) (i : Z) (h : list Z) (blocks : list bytes) : list Z :=
  match blocks with [] => h | p :: r => chain s len (i + 1) (blake_compress h s (counter len i) p) r end.
(** The successive 64-byte blocks of a text. *)
Fixpoint take_blocks (n : nat) (l : bytes) : list bytes := match n with O => [] | S k => firstn 64 l :: take_blocks k (skipn 64 l) end.
Definition blocks (l : bytes) : list bytes := take_blocks (length l / 64) l.
Definition iv (size : Z) : list Z :=
  if size =? 224 then [0xC1059ED8; 0x367CD507; 0x3070DD17; 0xF70E5939; 0xFFC00B31; 0x68581511; 0x64F98FA7; 0xBEFA4FA4]
  else [0x6A09E667; 0xBB67AE85; 0x3C6EF372; 0xA54FF53A; 0x510E527F; 0x9B05688C; 0x1F83D9AB; 0x5BE0CD19].
(** The hash of a message, for size 224 or 256 and a salt of four words. *)
Definition blake (size : Z) (salt : list Z) (m : bytes) : bytes :=
  flat_map (fun w => be_bytes 4 w) (firstn (Z.to_nat (size / 32)) (chain salt (zlen m) 0 (iv size) (blocks (m ++ padding (if size =? 224 then 0 else 1) (zlen m))))).
