(** Cyclic redundancy checks: specification and theorems (C18). *)
From Coq Require Import String ZArith List Bool Lia ZifyBool ZifyNat.
From Verif Require Import Go GoFacts PolymodProofs CrcModel.
Import ListNotations.
Open Scope Z_scope.
Ltac Zify.zify_post_hook ::= idtac.

(** ** Specification *)
(** CRC-32 bit by bit: the register is shifted right once per message bit, least significant bit of each
    byte first, and the reflected polynomial is added when the bit shifted out differs from the message bit. *)
Definition crc32_bit (r : Z) (b : bool) : Z :=
  if xorb (Z.testbit r 0) b then Z.lxor (r / 2) 0xEDB88320 else r / 2.
Definition byte_bits (x : Z) : list bool := map (fun i => Z.testbit x (Z.of_nat i)) (seq 0 8).
Definition crc32_spec (s : bytes) : Z :=
  Z.lxor (fold_left crc32_bit (flat_map byte_bits s) 0xFFFFFFFF) 0xFFFFFFFF.
(** Product of polynomials over GF(2): [q] lists the coefficients of the first, constant term first; the
    second is given by the bits of [P]. *)
Fixpoint gf2_times (q : list bool) (P : Z) : Z :=
  match q with [] => 0 | b :: r => Z.lxor (if b then P else 0) (2 * gf2_times r P) end.
(** [r] is the remainder of [x] modulo the polynomial [P] of degree [n]. *)
Definition gf2_remainder (n P x r : Z) : Prop :=
  0 <= r < 2 ^ n /\ exists q, Z.lxor x r = gf2_times q P.

(** ** GF(2) facts *)
Lemma add_lxor a b k : 0 <= k -> 0 <= b < 2 ^ k -> a * 2 ^ k + b = Z.lxor (a * 2 ^ k) b.
Proof.
  intros Hk Hb. apply Z.add_nocarry_lxor. apply Z.bits_inj'. intros i Hi. rewrite Z.land_spec, Z.bits_0.
  destruct (Z.lt_ge_cases i k).
  - rewrite Z.mul_pow2_bits_low by lia. reflexivity.
  - rewrite (small_testbit k b) by lia. apply andb_false_r.
Qed.
Lemma lxor_mul2 a b k : 0 <= k -> Z.lxor a b * 2 ^ k = Z.lxor (a * 2 ^ k) (b * 2 ^ k).
Proof. intros. rewrite <- !Z.shiftl_mul_pow2 by lia. apply Z.shiftl_lxor. Qed.
Lemma lxor_2 a b : 2 * Z.lxor a b = Z.lxor (2 * a) (2 * b).
Proof. pose proof (lxor_mul2 a b 1 ltac:(lia)) as E. change (2 ^ 1) with 2 in E. rewrite !(Z.mul_comm 2). exact E. Qed.
Fixpoint xor_list (p q : list bool) : list bool :=
  match p, q with
  | [], _ => q
  | _, [] => p
  | a :: p', b :: q' => xorb a b :: xor_list p' q'
  end.
Lemma times_xor p : forall q P, gf2_times (xor_list p q) P = Z.lxor (gf2_times p P) (gf2_times q P).
Proof.
  induction p as [|a p IH]; intros [|b q] P; cbn [xor_list gf2_times]; rewrite ?Z.lxor_0_r, ?Z.lxor_0_l; try reflexivity.
  rewrite IH, lxor_2, lxor_swap. f_equal. destruct a, b; cbn [xorb]; rewrite ?Z.lxor_0_r, ?Z.lxor_0_l, ?Z.lxor_nilpotent; reflexivity.
Qed.
Lemma times_shift k q P : gf2_times (repeat false k ++ q) P = gf2_times q P * 2 ^ Z.of_nat k.
Proof.
  induction k as [|k IH]; cbn [repeat app gf2_times]; [change (2 ^ Z.of_nat 0) with 1; lia|].
  rewrite IH, Z.lxor_0_l. rewrite Nat2Z.inj_succ, Z.pow_succ_r by lia. lia.
Qed.
Lemma times_big n P q : 0 <= n -> 2 ^ n <= P < 2 ^ (n + 1) -> gf2_times q P = 0 \/ 2 ^ n <= gf2_times q P.
Proof.
  intros Hn HP. assert (0 < 2 ^ n) by (apply Z.pow_pos_nonneg; lia).
  induction q as [|b q IH]; cbn [gf2_times]; [auto|]. destruct IH as [->|IH].
  - rewrite Z.mul_0_r, Z.lxor_0_r. destruct b; [right; lia|auto].
  - right. set (T := gf2_times q P) in *.
    assert (Q0 : 0 <= Z.lxor (if b then P else 0) (2 * T)) by (apply Z.lxor_nonneg; destruct b; lia).
    destruct (Z.lt_ge_cases (Z.lxor (if b then P else 0) (2 * T)) (2 ^ n)) as [C|C]; [exfalso|exact C].
    assert (HT : Z.log2 (2 * T) >= n + 1) by (rewrite Z.log2_double by lia; apply Z.log2_le_mono in IH; rewrite Z.log2_pow2 in IH by lia; lia).
    assert (B : Z.testbit (Z.lxor (if b then P else 0) (2 * T)) (Z.log2 (2 * T)) = true).
    { rewrite Z.lxor_spec, (Z.bit_log2 (2 * T)) by lia. rewrite (small_testbit (n + 1)); [reflexivity|lia|destruct b; lia|lia]. }
    rewrite (small_testbit n) in B by lia. discriminate.
Qed.
Theorem gf2_remainder_unique : forall n P x r r', 0 <= n -> 2 ^ n <= P < 2 ^ (n + 1) ->
  gf2_remainder n P x r -> gf2_remainder n P x r' -> r = r'.
Proof.
  intros n P x r r' Hn HP (Hr & q & E) (Hr' & q' & E').
  assert (K : Z.lxor r r' = gf2_times (xor_list q q') P).
  { rewrite times_xor, <- E, <- E'. rewrite lxor_swap, Z.lxor_nilpotent, Z.lxor_0_l. reflexivity. }
  apply lxor_eq0. pose proof (lxor_range n r r' Hn Hr Hr') as B. destruct (times_big n P (xor_list q q') Hn HP) as [Z0|Z0]; lia.
Qed.

(** ** CRC-24Q *)
Definition crc24_poly : Z := 0x1864CFB.
(** long division of a 32-bit value, for the check of the table *)
Fixpoint div24 (k : nat) (x : Z) : list bool :=
  match k with
  | O => []
  | S k' => let b := Z.testbit x (24 + Z.of_nat k') in div24 k' (if b then Z.lxor x (crc24_poly * 2 ^ Z.of_nat k') else x) ++ [b]
  end.
Lemma crc24_table_check : forallb (fun t => let v := nth t crc24q_table 0 in
  (gf2_times (div24 8 v) crc24_poly =? v) && (v / 2 ^ 24 =? Z.of_nat t)) (seq 0 256) = true.
Proof. vm_compute. reflexivity. Qed.
Lemma crc24_entry t : 0 <= t < 256 -> exists v q, idx crc24q_table t = Ok v /\ v = gf2_times q crc24_poly /\ v / 2 ^ 24 = t.
Proof.
  intros Ht. pose proof crc24_table_check as C. rewrite forallb_forall in C.
  specialize (C (Z.to_nat t)). cbv beta zeta in C. rewrite andb_true_iff in C. destruct C as [C1 C2]; [apply in_seq; lia|].
  set (v := nth (Z.to_nat t) crc24q_table 0) in *. exists v, (div24 8 v). split; [|split; [lia|lia]].
  unfold idx. replace (t <? 0) with false by lia. rewrite (nth_error_nth' _ 0); [reflexivity|]. change (length crc24q_table) with 256%nat. lia.
Qed.
Lemma crc24_loop data : is_bytes data -> forall s M q, 0 <= s < 2 ^ 32 -> 0 <= M -> Z.lxor (M * 2 ^ 24) (s mod 2 ^ 24) = gf2_times q crc24_poly ->
  exists s' q', crc24q_loop data s = Ok s' /\ 0 <= s' < 2 ^ 32 /\
    Z.lxor ((M * 256 ^ zlen data + be_num data) * 2 ^ 24) (s' mod 2 ^ 24) = gf2_times q' crc24_poly.
Proof.
  induction data as [|b data IH]; intros Hd s M q Hs HM E; cbn [crc24q_loop].
  - exists s, q. split; [reflexivity|]. split; [exact Hs|]. rewrite be_num_nil. change (zlen (@nil Z)) with 0. rewrite Z.pow_0_r, Z.mul_1_r, Z.add_0_r. exact E.
  - apply is_bytes_cons in Hd as [Hb Hd]. unfold is_byte in Hb.
    set (c := s mod 2 ^ 24). set (hi := c / 2 ^ 16). set (lo := c mod 2 ^ 16).
    assert (Hc : 0 <= c < 2 ^ 24) by (apply Z.mod_pos_bound; reflexivity).
    assert (Hlo : 0 <= lo < 2 ^ 16) by (apply Z.mod_pos_bound; reflexivity).
    assert (Hhi : 0 <= hi < 256) by (unfold hi; split; [apply Z.div_pos; lia|apply Z.div_lt_upper_bound; lia]).
    assert (Ec : c = hi * 2 ^ 16 + lo) by (unfold hi, lo; rewrite Z.mul_comm; apply Z.div_mod; lia).
    assert (Ehi : Z.land 255 (Z.shiftr s 16) = hi).
    { rewrite Z.land_comm. change 255 with (Z.ones 8). rewrite Z.land_ones by lia. rewrite Z.shiftr_div_pow2 by lia.
      unfold hi, c. change (2 ^ 24) with (2 ^ 16 * 2 ^ 8). rewrite (Z.rem_mul_r s (2 ^ 16) (2 ^ 8)) by lia.
      rewrite (Z.mul_comm (2 ^ 16)), Z.div_add by lia. rewrite (Z.div_small (s mod 2 ^ 16)) by (apply Z.mod_pos_bound; reflexivity). lia. }
    rewrite Ehi. pose proof (lxor_range 8 b hi ltac:(lia) ltac:(lia) ltac:(lia)) as Ht. change (2 ^ 8) with 256 in Ht.
    destruct (crc24_entry _ Ht) as (v & qt & Ev & Vq & Vt). rewrite Ev. cbn [bind].
    assert (Vr : 0 <= v < 2 ^ 32).
    { destruct (Z.lt_ge_cases v 0) as [N|N]; [assert (v / 2 ^ 24 < 0) by (apply Z.div_lt_upper_bound; lia); lia|].
      split; [exact N|]. destruct (Z.lt_ge_cases v (2 ^ 32)) as [K|K]; [exact K|]. assert (256 <= v / 2 ^ 24) by (apply Z.div_le_lower_bound; lia). lia. }
    set (s1 := u32 (Z.shiftl s 8)).
    assert (H1 : 0 <= s1 < 2 ^ 32) by (unfold s1, u32; apply Z.mod_pos_bound; reflexivity).
    assert (E1 : s1 mod 2 ^ 24 = lo * 2 ^ 8).
    { unfold s1, u32. rewrite Z.shiftl_mul_pow2 by lia. replace (2 ^ 32) with (2 ^ 24 * 2 ^ 8) by reflexivity.
      rewrite Z.mul_mod_distr_r by lia. fold c. replace (2 ^ 24) with (2 ^ 16 * 2 ^ 8) by reflexivity. rewrite Z.mul_mod_distr_r by lia. reflexivity. }
    pose proof (lxor_range 32 s1 v ltac:(lia) H1 Vr) as H2.
    destruct (IH Hd (Z.lxor s1 v) (M * 256 + b) (xor_list (repeat false 8 ++ q) qt)) as (s' & q' & L & S' & F); [exact H2|lia| |].
    + rewrite times_xor, times_shift, <- E, <- Vq. fold c.
      assert (Em : Z.lxor s1 v mod 2 ^ 24 = Z.lxor (s1 mod 2 ^ 24) (v mod 2 ^ 24)).
      { rewrite <- !Z.land_ones by lia. apply Z.bits_inj'. intros i Hi. rewrite ?Z.land_spec, ?Z.lxor_spec, ?Z.land_spec.
        destruct (Z.testbit s1 i), (Z.testbit v i), (Z.testbit (Z.ones 24) i); reflexivity. }
      rewrite Em, E1. set (w := v mod 2 ^ 24).
      assert (Hw : 0 <= w < 2 ^ 24) by (apply Z.mod_pos_bound; reflexivity).
      assert (Ew : v = Z.lxor (Z.lxor (b * 2 ^ 24) (hi * 2 ^ 24)) w).
      { rewrite <- lxor_mul2 by lia. rewrite <- add_lxor by lia. rewrite <- Vt. unfold w. rewrite Z.mul_comm. apply Z.div_mod. lia. }
      rewrite Ew. rewrite Ec. change (2 ^ Z.of_nat 8) with (2 ^ 8).
      replace ((M * 256 + b) * 2 ^ 24) with (M * 2 ^ 32 + b * 2 ^ 24) by lia. rewrite add_lxor by lia.
      rewrite (add_lxor hi lo 16) by lia. rewrite !lxor_mul2 by lia.
      replace (hi * 2 ^ 16 * 2 ^ 8) with (hi * 2 ^ 24) by lia. replace (M * 2 ^ 24 * 2 ^ 8) with (M * 2 ^ 32) by lia.
      set (A := M * 2 ^ 32). set (B := b * 2 ^ 24). set (C := hi * 2 ^ 24). set (D := lo * 2 ^ 8).
      apply Z.bits_inj'. intros i Hi. rewrite !Z.lxor_spec.
      destruct (Z.testbit A i), (Z.testbit B i), (Z.testbit C i), (Z.testbit D i), (Z.testbit w i); reflexivity.
    + exists s', q'. split; [exact L|]. split; [exact S'|]. rewrite <- F. f_equal. f_equal. rewrite zlen_cons, be_num_cons.
      pose proof (zlen_nonneg data). rewrite Z.pow_add_r by lia. lia.
Qed.
(** crc24q is the remainder of the message polynomial times x^24 modulo 0x1864CFB, for every message. *)
Theorem crc24q_is_remainder : forall data, is_bytes data ->
  exists r, crc24q data = Ok r /\ gf2_remainder 24 0x1864CFB (be_num data * 2 ^ 24) r.
Proof.
  intros data Hd. destruct (crc24_loop data Hd 0 0 []) as (s & q & E & Hs & F); [lia|lia|reflexivity|].
  exists (s mod 2 ^ 24). unfold crc24q. rewrite E. cbn [bind]. change 16777215 with (Z.ones 24). rewrite Z.land_ones by lia.
  split; [reflexivity|]. split; [apply Z.mod_pos_bound; reflexivity|]. exists q. rewrite Z.mul_0_l, Z.add_0_l in F. exact F.
Qed.
Example crc24q_example : crc24q (str "123456789") = Ok 0xCDE703.
Proof. vm_compute. reflexivity. Qed.

(** ** CRC-32 *)
Definition L32 (x : Z) : Z := Z.lxor (x / 2) (if Z.testbit x 0 then 0xEDB88320 else 0).
Lemma div2_lxor a b : Z.lxor a b / 2 = Z.lxor (a / 2) (b / 2).
Proof. rewrite <- !(Z.shiftr_div_pow2 _ 1) by lia. apply Z.shiftr_lxor. Qed.
Lemma L32_lxor a b : L32 (Z.lxor a b) = Z.lxor (L32 a) (L32 b).
Proof.
  unfold L32. rewrite div2_lxor, Z.lxor_spec, lxor_swap. f_equal. destruct (Z.testbit a 0), (Z.testbit b 0); reflexivity.
Qed.
Fixpoint iter32 (n : nat) (x : Z) : Z := match n with O => x | S n' => iter32 n' (L32 x) end.
Lemma iter32_lxor n : forall a b, iter32 n (Z.lxor a b) = Z.lxor (iter32 n a) (iter32 n b).
Proof. induction n as [|n IH]; intros a b; cbn [iter32]; [reflexivity|]. rewrite L32_lxor. apply IH. Qed.
Lemma L32_even x : L32 (2 * x) = x.
Proof. unfold L32. rewrite Z.mul_comm, Z.div_mul by lia. rewrite Z.testbit_even_0 || rewrite Z.mul_comm, Z.testbit_even_0. apply Z.lxor_0_r. Qed.
Lemma iter32_shift n : forall x, iter32 n (x * 2 ^ Z.of_nat n) = x.
Proof.
  induction n as [|n IH]; intros x; cbn [iter32]; [change (2 ^ Z.of_nat 0) with 1; lia|].
  rewrite Nat2Z.inj_succ, Z.pow_succ_r by lia. replace (x * (2 * 2 ^ Z.of_nat n)) with (2 * (x * 2 ^ Z.of_nat n)) by lia. rewrite L32_even. apply IH.
Qed.
Lemma L32_range x : 0 <= x < 2 ^ 32 -> 0 <= L32 x < 2 ^ 32.
Proof.
  intros Hx. unfold L32. apply (lxor_range 32); [lia| |destruct (Z.testbit x 0); lia]. split; [apply Z.div_pos; lia|].
  apply Z.div_lt_upper_bound; lia.
Qed.
Lemma iter32_range n : forall x, 0 <= x < 2 ^ 32 -> 0 <= iter32 n x < 2 ^ 32.
Proof. induction n as [|n IH]; intros x Hx; cbn [iter32]; [exact Hx|]. apply IH, L32_range, Hx. Qed.
Lemma L32_inj0 x : 0 <= x < 2 ^ 32 -> L32 x = 0 -> x = 0.
Proof.
  intros Hx E. unfold L32 in E. destruct (Z.testbit x 0) eqn:T.
  - apply lxor_eq0 in E. assert (x / 2 < 2 ^ 31) by (apply Z.div_lt_upper_bound; lia). lia.
  - rewrite Z.lxor_0_r in E. assert (x mod 2 = 0) by (rewrite Zmod_odd, <- Z.bit0_odd, T; reflexivity).
    pose proof (Z.div_mod x 2 ltac:(lia)). lia.
Qed.
Lemma iter32_inj0 n : forall x, 0 <= x < 2 ^ 32 -> iter32 n x = 0 -> x = 0.
Proof. induction n as [|n IH]; intros x Hx E; cbn [iter32] in E; [exact E|]. apply L32_inj0; [exact Hx|]. apply IH; [apply L32_range, Hx|exact E]. Qed.
Lemma crc32_word_iter n : forall x, crc32_word n x = iter32 n x.
Proof.
  induction n as [|n IH]; intros x; cbn [crc32_word iter32]; [reflexivity|]. rewrite IH. f_equal. unfold L32.
  rewrite (Z.shiftr_div_pow2 x 1) by lia. change (2 ^ 1) with 2. change 3988292384 with 0xEDB88320.
  assert (E : (Z.land x 1 =? 1) = Z.testbit x 0).
  { change 1 with (Z.ones 1) at 1. rewrite Z.land_ones by lia. change (2 ^ 1) with 2. rewrite Zmod_odd, <- Z.bit0_odd. destruct (Z.testbit x 0); reflexivity. }
  rewrite E. destruct (Z.testbit x 0); [reflexivity|]. rewrite Z.lxor_0_r. reflexivity.
Qed.
Lemma crc32_bit_L r b : crc32_bit r b = L32 (Z.lxor r (Z.b2z b)).
Proof.
  unfold crc32_bit, L32. rewrite Z.lxor_spec, div2_lxor. replace (Z.b2z b / 2) with 0 by (destruct b; reflexivity). rewrite Z.lxor_0_r.
  replace (Z.testbit (Z.b2z b) 0) with b by (destruct b; reflexivity). destruct (xorb _ b); [reflexivity|]. rewrite Z.lxor_0_r. reflexivity.
Qed.
Lemma bits_fold n : forall x r, fold_left crc32_bit (map (fun i => Z.testbit x (Z.of_nat i)) (seq 0 n)) r = iter32 n (Z.lxor r (x mod 2 ^ Z.of_nat n)).
Proof.
  induction n as [|n IH]; intros x r.
  - cbn. rewrite Z.mod_1_r, Z.lxor_0_r. reflexivity.
  - cbn [seq map fold_left]. rewrite <- seq_shift, map_map.
    rewrite (map_ext _ (fun i => Z.testbit (x / 2) (Z.of_nat i))).
    2:{ intros i. change (x / 2) with (x / 2 ^ 1). rewrite Nat2Z.inj_succ, <- (Z.shiftr_div_pow2 x 1) by lia. rewrite Z.shiftr_spec by lia. f_equal. }
    rewrite IH. cbn [iter32]. f_equal. rewrite crc32_bit_L.
    assert (E : x mod 2 ^ Z.of_nat (S n) = Z.lxor (2 * ((x / 2) mod 2 ^ Z.of_nat n)) (Z.b2z (Z.testbit x 0))).
    { rewrite Nat2Z.inj_succ, Z.pow_succ_r by lia. rewrite Z.rem_mul_r by lia. 
      assert (x mod 2 = Z.b2z (Z.testbit x 0)) as -> by (rewrite Zmod_odd, <- Z.bit0_odd; destruct (Z.testbit x 0); reflexivity).
      pose proof (add_lxor ((x / 2) mod 2 ^ Z.of_nat n) (Z.b2z (Z.testbit x 0)) 1 ltac:(lia)) as A. change (2 ^ 1) with 2 in A.
      rewrite Z.mul_comm, <- A by (destruct (Z.testbit x 0); cbn; lia). lia. }
    rewrite E. set (y := (x / 2) mod 2 ^ Z.of_nat n). change (Z.of_nat 0) with 0.
    replace (Z.lxor r (Z.lxor (2 * y) (Z.b2z (Z.testbit x 0)))) with (Z.lxor (2 * y) (Z.lxor r (Z.b2z (Z.testbit x 0)))).
    + rewrite (L32_lxor (2 * y)), L32_even. apply Z.lxor_comm.
    + rewrite <- !Z.lxor_assoc. f_equal. apply Z.lxor_comm.
Qed.
Lemma byte_fold b r : 0 <= b < 256 -> fold_left crc32_bit (byte_bits b) r = iter32 8 (Z.lxor r b).
Proof. intros Hb. unfold byte_bits. rewrite bits_fold. change (2 ^ Z.of_nat 8) with 256. rewrite Z.mod_small by lia. reflexivity. Qed.
Lemma crc32_step b r : 0 <= b < 256 -> 0 <= r < 2 ^ 32 ->
  idx crc32_table (Z.lxor (u8 r) b) = Ok (iter32 8 (Z.lxor (u8 r) b)) /\
  Z.lxor (iter32 8 (Z.lxor (u8 r) b)) (Z.shiftr r 8) = iter32 8 (Z.lxor r b).
Proof.
  intros Hb Hr. assert (Hu : 0 <= u8 r < 2 ^ 8) by (apply Z.mod_pos_bound; reflexivity).
  pose proof (lxor_range 8 (u8 r) b ltac:(lia) Hu ltac:(lia)) as Hi. split.
  - unfold idx. replace (_ <? 0) with false by lia. unfold crc32_table. rewrite nth_error_map.
    rewrite (nth_error_nth' _ O) by (rewrite seq_length; lia). rewrite seq_nth by lia. cbn [option_map]. rewrite crc32_word_iter. do 2 f_equal. lia.
  - assert (E : r = Z.lxor (Z.shiftr r 8 * 2 ^ 8) (u8 r)).
    { rewrite <- add_lxor by lia. rewrite Z.shiftr_div_pow2 by lia. unfold u8. rewrite Z.mul_comm. apply Z.div_mod. lia. }
    rewrite E at 3. rewrite <- (iter32_shift 8 (Z.shiftr r 8)) at 1. change (2 ^ Z.of_nat 8) with (2 ^ 8).
    rewrite <- iter32_lxor. f_equal. rewrite Z.lxor_comm, Z.lxor_assoc. reflexivity.
Qed.
Lemma crc32_loop_spec s : is_bytes s -> forall r, 0 <= r < 2 ^ 32 ->
  crc32_loop s r = Ok (fold_left crc32_bit (flat_map byte_bits s) r) /\ 0 <= fold_left crc32_bit (flat_map byte_bits s) r < 2 ^ 32.
Proof.
  induction s as [|b s IH]; intros Hs r Hr; cbn [crc32_loop flat_map]; [auto|].
  apply is_bytes_cons in Hs as [Hb Hs]. unfold is_byte in Hb. destruct (crc32_step b r Hb Hr) as [E1 E2]. rewrite E1. cbn [bind]. rewrite E2.
  rewrite fold_left_app. rewrite byte_fold by lia.
  apply IH; [exact Hs|]. apply iter32_range. apply (lxor_range 32); lia.
Qed.
(** The table-driven CRC32 is the bit-by-bit CRC-32 of the message, as four big-endian bytes. *)
Theorem crc32_is_bitwise : forall s, is_bytes s ->
  CRC32 s = Ok (be_bytes 4 (crc32_spec s)) /\ 0 <= crc32_spec s < 2 ^ 32.
Proof.
  intros s Hs. destruct (crc32_loop_spec s Hs (2 ^ 32 - 1) ltac:(lia)) as [E R]. unfold CRC32. rewrite E. cbn [bind].
  change (2 ^ 32 - 1) with 0xFFFFFFFF in *. split; [reflexivity|]. apply (lxor_range 32); lia.
Qed.
(** Two messages of the same length that differ only inside a window of at most four bytes have different CRCs. *)
Lemma crc_fold_inj s : forall r r', 0 <= r < 2 ^ 32 -> 0 <= r' < 2 ^ 32 -> is_bytes s ->
  fold_left crc32_bit (flat_map byte_bits s) r = fold_left crc32_bit (flat_map byte_bits s) r' -> r = r'.
Proof.
  induction s as [|b s IH]; intros r r' Hr Hr' Hs; cbn [flat_map]; [auto|]. apply is_bytes_cons in Hs as [Hb Hs]. unfold is_byte in Hb.
  rewrite !fold_left_app. rewrite !byte_fold by lia. intros E.
  assert (H1 : 0 <= Z.lxor r b < 2 ^ 32) by (apply (lxor_range 32); lia). assert (H2 : 0 <= Z.lxor r' b < 2 ^ 32) by (apply (lxor_range 32); lia).
  apply IH in E; [|apply iter32_range; assumption|apply iter32_range; assumption|exact Hs].
  assert (K : iter32 8 (Z.lxor (Z.lxor r b) (Z.lxor r' b)) = 0) by (rewrite iter32_lxor, E; apply Z.lxor_nilpotent).
  rewrite lxor_swap, Z.lxor_nilpotent, Z.lxor_0_r in K. apply lxor_eq0. apply (iter32_inj0 8); [apply (lxor_range 32); lia|exact K].
Qed.
Lemma fold_word w : is_bytes w -> (length w <= 4)%nat -> forall r, 0 <= r < 2 ^ 32 ->
  fold_left crc32_bit (flat_map byte_bits w) r = iter32 (8 * length w) (Z.lxor r (le_num w)).
Proof.
  induction w as [|b w IH]; intros Hw L r Hr; cbn [flat_map].
  - cbn. rewrite Z.lxor_0_r. reflexivity.
  - apply is_bytes_cons in Hw as [Hb Hw]. unfold is_byte in Hb. cbn [length] in L.
    rewrite fold_left_app. rewrite byte_fold by lia.
    rewrite IH; [|exact Hw|lia|apply iter32_range; apply (lxor_range 32); lia].
    replace (8 * length (b :: w))%nat with (8 + 8 * length w)%nat by (cbn [length]; lia).
    assert (G : forall m n x, iter32 (m + n) x = iter32 n (iter32 m x)) by (induction m as [|m IHm]; intros n x; cbn [Nat.add iter32]; [reflexivity|apply IHm]).
    rewrite G. f_equal. cbn [le_num]. replace (b + 256 * le_num w) with (le_num w * 2 ^ 8 + b) by lia. rewrite add_lxor by lia.
    rewrite Z.lxor_comm with (a := le_num w * 2 ^ 8). rewrite <- Z.lxor_assoc, (iter32_lxor 8 (Z.lxor r b)). f_equal. symmetry. apply (iter32_shift 8).
Qed.
Theorem crc32_detects_bursts : forall a w w' z, is_bytes (a ++ w ++ z) -> is_bytes w' -> length w = length w' -> (length w <= 4)%nat -> w <> w' ->
  CRC32 (a ++ w ++ z) <> CRC32 (a ++ w' ++ z).
Proof.
  intros a w w' z Ha Hw' L L4 N E. apply is_bytes_app in Ha as [Ha Hwz]. apply is_bytes_app in Hwz as [Hw Hz].
  assert (B1 : is_bytes (a ++ w ++ z)) by (rewrite !is_bytes_app; tauto). assert (B2 : is_bytes (a ++ w' ++ z)) by (rewrite !is_bytes_app; tauto).
  destruct (crc32_is_bitwise _ B1) as [E1 R1]. destruct (crc32_is_bitwise _ B2) as [E2 R2]. rewrite E1, E2 in E.
  assert (E' : be_bytes 4 (crc32_spec (a ++ w ++ z)) = be_bytes 4 (crc32_spec (a ++ w' ++ z))) by congruence. clear E. rename E' into E.
  assert (K : crc32_spec (a ++ w ++ z) = crc32_spec (a ++ w' ++ z)).
  { apply (f_equal be_num) in E. rewrite !be_num_be_bytes in E. change (256 ^ Z.of_nat 4) with (2 ^ 32) in E. rewrite !Z.mod_small in E by lia. exact E. }
  unfold crc32_spec in K. assert (Q : forall x y m, Z.lxor x m = Z.lxor y m -> x = y).
  { intros x y m Q. apply lxor_eq0. rewrite <- (Z.lxor_0_r (Z.lxor x y)), <- (Z.lxor_nilpotent m), lxor_swap, Q. rewrite !Z.lxor_nilpotent. reflexivity. }
  apply Q in K. rewrite !flat_map_app, !fold_left_app in K. set (r := fold_left crc32_bit (flat_map byte_bits a) 0xFFFFFFFF) in *.
  assert (Hr : 0 <= r < 2 ^ 32) by (apply (crc32_loop_spec a Ha); lia).
  apply crc_fold_inj in K; [|apply (crc32_loop_spec w Hw r Hr)|apply (crc32_loop_spec w' Hw' r Hr)|exact Hz].
  rewrite !fold_word in K by (assumption || lia). rewrite <- L in K.
  pose proof (le_num_bound w Hw) as Bw. pose proof (le_num_bound w' Hw') as Bw'.
  assert (P4 : 256 ^ zlen w <= 2 ^ 32). { change (2 ^ 32) with (256 ^ 4). apply Z.pow_le_mono_r; unfold zlen; lia. }
  assert (P4' : 256 ^ zlen w' <= 2 ^ 32). { change (2 ^ 32) with (256 ^ 4). apply Z.pow_le_mono_r; unfold zlen; lia. }
  assert (K2 : iter32 (8 * length w) (Z.lxor (Z.lxor r (le_num w)) (Z.lxor r (le_num w'))) = 0) by (rewrite iter32_lxor, K; apply Z.lxor_nilpotent).
  apply iter32_inj0 in K2; [|apply (lxor_range 32); [lia|apply (lxor_range 32); lia|apply (lxor_range 32); lia]].
  rewrite lxor_swap, Z.lxor_nilpotent, Z.lxor_0_l in K2. apply lxor_eq0 in K2. apply N. apply le_num_inj; assumption.
Qed.
Example crc32_example : CRC32 (str "123456789") = Ok [0xCB; 0xF4; 0x39; 0x26].
Proof. vm_compute. reflexivity. Qed.

Print Assumptions crc24q_is_remainder.
Print Assumptions gf2_remainder_unique.
Print Assumptions crc32_is_bitwise.
Print Assumptions crc32_detects_bursts.
