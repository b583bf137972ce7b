(** C58, C59: scalar range checks and nonces of the deterministic signers. *)
From Coq Require Import String ZArith List Bool Lia ZifyBool ZifyNat.
From Verif Require Import Go GoFacts GoFacts2 PadLoop SigModel Uvarint SigNormProps SignerModel.
Import ListNotations.
Open Scope Z_scope.
Ltac Zify.zify_post_hook ::= idtac.

(** ** Specification *)
(** RFC 6979, section 3.2 (SHA-256, 256-bit group order), steps b-h: the pair (K, V) after the seed has been mixed in, the
    candidate read from it, and the pair for the next candidate. *)
Definition rfc_seeded (hmac : bytes -> bytes -> bytes) (seed : bytes) : bytes * bytes :=
  let K := repeat 0 32 in
  let V := repeat 1 32 in
  let K := hmac K (V ++ [0] ++ seed) in
  let V := hmac K V in
  let K := hmac K (V ++ [1] ++ seed) in
  let V := hmac K V in (K, V).
Definition rfc_candidate (hmac : bytes -> bytes -> bytes) (KV : bytes * bytes) : bytes := hmac (fst KV) (snd KV).
Definition rfc_next (hmac : bytes -> bytes -> bytes) (KV : bytes * bytes) : bytes * bytes :=
  let V := hmac (fst KV) (snd KV) in
  let K := hmac (fst KV) (V ++ [0]) in
  let V := hmac K V in (K, V).
(** The first candidate for a key and a message hash. *)
Definition rfc_first (hmac : bytes -> bytes -> bytes) (key msg : bytes) : bytes := rfc_candidate hmac (rfc_seeded hmac (key ++ msg)).
(** HMAC-SHA256 returns 32 bytes. *)
Definition hmac_ok (hmac : bytes -> bytes -> bytes) : Prop := forall k d, is_bytes (hmac k d) /\ length (hmac k d) = 32%nat.
(** A usable scalar: 1 .. order-1. *)
Definition scalar_ok (x : Z) : bool := (0 <? x) && (x <? secp_order).

(** ** Words *)
Lemma word_ok w : forall p q acc, is_bytes w -> 0 <= acc ->
  word (p ++ w ++ q) (zlen p) (length w) (acc * 2 ^ (8 * zlen w)) = Ok (acc * 2 ^ (8 * zlen w) + be_num w).
Proof.
  induction w as [|b w IH]; intros p q acc B A.
  - cbn [length word]. change (be_num []) with 0. rewrite Z.add_0_r. reflexivity.
  - cbn [length word]. inversion B as [|? ? Hb Hw]; subst. change ((b :: w) ++ q) with (b :: (w ++ q)).
    rewrite idx_mid by reflexivity. cbn [bind]. change (Z.of_nat (length w)) with (zlen w). rewrite zlen_cons.
    pose proof (zlen_nonneg w) as L. unfold is_byte in Hb. rewrite Z.shiftl_mul_pow2 by lia.
    assert (E : 2 ^ (8 * (1 + zlen w)) = 256 * 2 ^ (8 * zlen w)) by (replace (8 * (1 + zlen w)) with (8 + 8 * zlen w) by lia; rewrite Z.pow_add_r by lia; reflexivity).
    assert (P : 0 < 2 ^ (8 * zlen w)) by (apply Z.pow_pos_nonneg; lia).
    rewrite Z.lor_comm, lor_add by (try rewrite E; nia). rewrite E.
    replace (b * 2 ^ (8 * zlen w) + acc * (256 * 2 ^ (8 * zlen w))) with ((acc * 256 + b) * 2 ^ (8 * zlen w)) by ring.
    replace (p ++ b :: w ++ q) with ((p ++ [b]) ++ w ++ q) by (rewrite <- app_assoc; reflexivity).
    replace (zlen p + 1) with (zlen (p ++ [b])) by (rewrite zlen_app; reflexivity).
    rewrite IH by (try assumption; lia). f_equal. rewrite be_num_cons.
    replace (256 ^ zlen w) with (2 ^ (8 * zlen w)) by (rewrite Z.pow_mul_r by lia; reflexivity). ring.
Qed.
Lemma word0 p w q i n : is_bytes w -> i = zlen p -> n = length w -> word (p ++ w ++ q) i n 0 = Ok (be_num w).
Proof. intros B -> ->. change 0 with (0 * 2 ^ (8 * zlen w)) at 1. rewrite word_ok by (try assumption; lia). reflexivity. Qed.
Lemma word00 w q n : is_bytes w -> n = length w -> word (w ++ q) 0 n 0 = Ok (be_num w).
Proof. intros B L. exact (word0 [] w q 0 n B eq_refl L). Qed.
Lemma word_short a : forall n i acc, 0 <= i <= zlen a -> zlen a < i + Z.of_nat n -> word a i n acc = Panic.
Proof.
  induction n as [|n IH]; intros i acc I H.
  - exfalso. lia.
  - cbn [word]. unfold idx. replace (i <? 0) with false by lia. destruct (nth_error a (Z.to_nat i)) eqn:E; [|reflexivity].
    cbn [bind]. assert (Z.to_nat i < length a)%nat by (apply nth_error_Some; congruence). unfold zlen in *. apply IH; lia.
Qed.
Lemma cut (k : nat) (a : bytes) : is_bytes a -> (k <= length a)%nat -> exists w r, a = w ++ r /\ is_bytes w /\ is_bytes r /\ length w = k /\ length r = (length a - k)%nat.
Proof.
  intros B L. exists (firstn k a), (skipn k a). split; [symmetry; apply firstn_skipn|].
  assert (is_bytes (firstn k a ++ skipn k a)) as Q by (rewrite firstn_skipn; exact B). apply is_bytes_app in Q.
  split; [tauto|]. split; [tauto|]. rewrite firstn_length, skipn_length. lia.
Qed.
Lemma set64_ok w0 w1 w2 w3 q : is_bytes (w0 ++ w1 ++ w2 ++ w3) -> length w0 = 8%nat -> length w1 = 8%nat -> length w2 = 8%nat -> length w3 = 8%nat ->
  set_uint64 (w0 ++ w1 ++ w2 ++ w3 ++ q) = Ok (be_num w0, be_num w1, be_num w2, be_num w3).
Proof.
  intros B L0 L1 L2 L3. apply is_bytes_app in B. destruct B as [B0 B]. apply is_bytes_app in B. destruct B as [B1 B]. apply is_bytes_app in B. destruct B as [B2 B3].
  unfold set_uint64. rewrite (word00 w0) by (try assumption; lia). cbn [bind].
  rewrite (word0 w0 w1 (w2 ++ w3 ++ q) 8 8) by (try assumption; unfold zlen; lia). cbn [bind].
  replace (w0 ++ w1 ++ w2 ++ w3 ++ q) with ((w0 ++ w1) ++ w2 ++ w3 ++ q) by (rewrite <- !app_assoc; reflexivity).
  rewrite (word0 (w0 ++ w1) w2 (w3 ++ q) 16 8) by (try assumption; unfold zlen; rewrite ?app_length; lia). cbn [bind].
  replace ((w0 ++ w1) ++ w2 ++ w3 ++ q) with ((w0 ++ w1 ++ w2) ++ w3 ++ q) by (rewrite <- !app_assoc; reflexivity).
  rewrite (word0 (w0 ++ w1 ++ w2) w3 q 24 8) by (try assumption; unfold zlen; rewrite ?app_length; lia). reflexivity.
Qed.
Lemma set32_ok w0 w1 w2 w3 w4 w5 w6 w7 q : is_bytes (w0 ++ w1 ++ w2 ++ w3 ++ w4 ++ w5 ++ w6 ++ w7) ->
  length w0 = 4%nat -> length w1 = 4%nat -> length w2 = 4%nat -> length w3 = 4%nat -> length w4 = 4%nat -> length w5 = 4%nat -> length w6 = 4%nat -> length w7 = 4%nat ->
  set_uint32 (w0 ++ w1 ++ w2 ++ w3 ++ w4 ++ w5 ++ w6 ++ w7 ++ q) = Ok (be_num w0, be_num w1, be_num w2, be_num w3, be_num w4, be_num w5, be_num w6, be_num w7).
Proof.
  intros B L0 L1 L2 L3 L4 L5 L6 L7. rewrite !is_bytes_app in B. destruct B as (B0 & B1 & B2 & B3 & B4 & B5 & B6 & B7).
  unfold set_uint32.
  rewrite (word00 w0) by (try assumption; lia). cbn [bind].
  rewrite (word0 w0 w1 (w2 ++ w3 ++ w4 ++ w5 ++ w6 ++ w7 ++ q) 4 4) by (try assumption; unfold zlen; lia). cbn [bind].
  replace (w0 ++ w1 ++ w2 ++ w3 ++ w4 ++ w5 ++ w6 ++ w7 ++ q) with ((w0 ++ w1) ++ w2 ++ w3 ++ w4 ++ w5 ++ w6 ++ w7 ++ q) by (rewrite <- !app_assoc; reflexivity).
  rewrite (word0 _ w2 _ 8 4) by (try assumption; unfold zlen; rewrite ?app_length; lia). cbn [bind].
  replace ((w0 ++ w1) ++ w2 ++ w3 ++ w4 ++ w5 ++ w6 ++ w7 ++ q) with ((w0 ++ w1 ++ w2) ++ w3 ++ w4 ++ w5 ++ w6 ++ w7 ++ q) by (rewrite <- !app_assoc; reflexivity).
  rewrite (word0 _ w3 _ 12 4) by (try assumption; unfold zlen; rewrite ?app_length; lia). cbn [bind].
  replace ((w0 ++ w1 ++ w2) ++ w3 ++ w4 ++ w5 ++ w6 ++ w7 ++ q) with ((w0 ++ w1 ++ w2 ++ w3) ++ w4 ++ w5 ++ w6 ++ w7 ++ q) by (rewrite <- !app_assoc; reflexivity).
  rewrite (word0 _ w4 _ 16 4) by (try assumption; unfold zlen; rewrite ?app_length; lia). cbn [bind].
  replace ((w0 ++ w1 ++ w2 ++ w3) ++ w4 ++ w5 ++ w6 ++ w7 ++ q) with ((w0 ++ w1 ++ w2 ++ w3 ++ w4) ++ w5 ++ w6 ++ w7 ++ q) by (rewrite <- !app_assoc; reflexivity).
  rewrite (word0 _ w5 _ 20 4) by (try assumption; unfold zlen; rewrite ?app_length; lia). cbn [bind].
  replace ((w0 ++ w1 ++ w2 ++ w3 ++ w4) ++ w5 ++ w6 ++ w7 ++ q) with ((w0 ++ w1 ++ w2 ++ w3 ++ w4 ++ w5) ++ w6 ++ w7 ++ q) by (rewrite <- !app_assoc; reflexivity).
  rewrite (word0 _ w6 _ 24 4) by (try assumption; unfold zlen; rewrite ?app_length; lia). cbn [bind].
  replace ((w0 ++ w1 ++ w2 ++ w3 ++ w4 ++ w5) ++ w6 ++ w7 ++ q) with ((w0 ++ w1 ++ w2 ++ w3 ++ w4 ++ w5 ++ w6) ++ w7 ++ q) by (rewrite <- !app_assoc; reflexivity).
  rewrite (word0 _ w7 _ 28 4) by (try assumption; unfold zlen; rewrite ?app_length; lia). reflexivity.
Qed.
Lemma be8 (w : bytes) : is_bytes w -> length w = 8%nat -> 0 <= be_num w < 2 ^ 64.
Proof. intros B L. pose proof (be_num_bound w B) as Q. unfold zlen in Q. rewrite L in Q. exact Q. Qed.
Lemma be4 (w : bytes) : is_bytes w -> length w = 4%nat -> 0 <= be_num w < 2 ^ 32.
Proof. intros B L. pose proof (be_num_bound w B) as Q. unfold zlen in Q. rewrite L in Q. exact Q. Qed.
Lemma pow_len (w : bytes) n : length w = n -> 256 ^ zlen w = 256 ^ Z.of_nat n.
Proof. intros <-. reflexivity. Qed.
Lemma order64 : set_uint64 order_bytes = Ok (0xFFFFFFFFFFFFFFFF, 0xFFFFFFFFFFFFFFFE, 0xBAAEDCE6AF48A03B, 0xBFD25E8CD0364141).
Proof. vm_compute. reflexivity. Qed.
Lemma order32 : set_uint32 order_bytes = Ok (0xFFFFFFFF, 0xFFFFFFFF, 0xFFFFFFFF, 0xFFFFFFFE, 0xBAAEDCE6, 0xAF48A03B, 0xBFD25E8C, 0xD0364141).
Proof. vm_compute. reflexivity. Qed.
Lemma order_num : be_num order_bytes = secp_order.
Proof. vm_compute. reflexivity. Qed.

(** ** C58 *)
(** For every string of at least 32 bytes: both overflow checks hold exactly when its first 32 bytes, read big endian,
    are at least the group order; the zero check exactly when they are all zero. *)
Theorem scalar_checks_exact : forall a, is_bytes a -> (32 <= length a)%nat ->
  overflow64 a = Ok (secp_order <=? be_num (firstn 32 a)) /\
  overflow32 a = Ok (secp_order <=? be_num (firstn 32 a)) /\
  is_zero a = Ok (be_num (firstn 32 a) =? 0).
Proof.
  intros a B L.
  destruct (cut 4 a B ltac:(lia)) as (w0 & r0 & -> & B0 & Br0 & L0 & Lr0).
  destruct (cut 4 r0 Br0 ltac:(lia)) as (w1 & r1 & -> & B1 & Br1 & L1 & Lr1).
  destruct (cut 4 r1 Br1 ltac:(lia)) as (w2 & r2 & -> & B2 & Br2 & L2 & Lr2).
  destruct (cut 4 r2 Br2 ltac:(lia)) as (w3 & r3 & -> & B3 & Br3 & L3 & Lr3).
  destruct (cut 4 r3 Br3 ltac:(lia)) as (w4 & r4 & -> & B4 & Br4 & L4 & Lr4).
  destruct (cut 4 r4 Br4 ltac:(lia)) as (w5 & r5 & -> & B5 & Br5 & L5 & Lr5).
  destruct (cut 4 r5 Br5 ltac:(lia)) as (w6 & r6 & -> & B6 & Br6 & L6 & Lr6).
  destruct (cut 4 r6 Br6 ltac:(lia)) as (w7 & r7 & -> & B7 & Br7 & L7 & Lr7).
  assert (F : firstn 32 (w0 ++ w1 ++ w2 ++ w3 ++ w4 ++ w5 ++ w6 ++ w7 ++ r7) = w0 ++ w1 ++ w2 ++ w3 ++ w4 ++ w5 ++ w6 ++ w7).
  { replace (w0 ++ w1 ++ w2 ++ w3 ++ w4 ++ w5 ++ w6 ++ w7 ++ r7) with ((w0 ++ w1 ++ w2 ++ w3 ++ w4 ++ w5 ++ w6 ++ w7) ++ r7) by (rewrite <- !app_assoc; reflexivity).
    rewrite firstn_app. replace (32 - length (w0 ++ w1 ++ w2 ++ w3 ++ w4 ++ w5 ++ w6 ++ w7))%nat with O by (rewrite !app_length; lia).
    rewrite firstn_all2 by (rewrite !app_length; lia). apply app_nil_r. }
  rewrite F. clear F.
  pose proof (be4 w0 B0 L0) as N0. pose proof (be4 w1 B1 L1) as N1. pose proof (be4 w2 B2 L2) as N2. pose proof (be4 w3 B3 L3) as N3.
  pose proof (be4 w4 B4 L4) as N4. pose proof (be4 w5 B5 L5) as N5. pose proof (be4 w6 B6 L6) as N6. pose proof (be4 w7 B7 L7) as N7.
  assert (S64 : set_uint64 (w0 ++ w1 ++ w2 ++ w3 ++ w4 ++ w5 ++ w6 ++ w7 ++ r7) = Ok (be_num (w0 ++ w1), be_num (w2 ++ w3), be_num (w4 ++ w5), be_num (w6 ++ w7))).
  { replace (w0 ++ w1 ++ w2 ++ w3 ++ w4 ++ w5 ++ w6 ++ w7 ++ r7) with ((w0 ++ w1) ++ (w2 ++ w3) ++ (w4 ++ w5) ++ (w6 ++ w7) ++ r7) by (rewrite <- !app_assoc; reflexivity).
    apply set64_ok; rewrite ?app_length; try lia. rewrite !is_bytes_app. tauto. }
  assert (S32 := set32_ok w0 w1 w2 w3 w4 w5 w6 w7 r7 ltac:(rewrite !is_bytes_app; tauto) L0 L1 L2 L3 L4 L5 L6 L7).
  unfold overflow64, overflow32, is_zero. rewrite S64, S32, order64, order32. cbn [bind]. clear S64 S32.
  rewrite !be_num_app, !zlen_app. unfold zlen. rewrite L1, L2, L3, L4, L5, L6, L7.
  repeat match goal with |- context [256 ^ ?e] => let v := eval vm_compute in (256 ^ e) in change (256 ^ e) with v end.
  unfold secp_order. change (2 ^ 32) with 4294967296 in *.
  clear - N0 N1 N2 N3 N4 N5 N6 N7.
  generalize dependent (be_num w0). generalize dependent (be_num w1). generalize dependent (be_num w2). generalize dependent (be_num w3).
  generalize dependent (be_num w4). generalize dependent (be_num w5). generalize dependent (be_num w6). generalize dependent (be_num w7).
  intros a7 N7 a6 N6 a5 N5 a4 N4 a3 N3 a2 N2 a1 N1 a0 N0.
  split; [|split]; f_equal.
  - apply eq_true_iff_eq. rewrite Z.leb_le. repeat rewrite ?orb_true_iff, ?andb_true_iff, ?negb_true_iff, ?orb_false_iff, ?Z.ltb_lt, ?Z.leb_le, ?Z.ltb_ge. lia.
  - symmetry. cbv zeta.
    destruct (Z.ltb_spec a0 4294967295); cbn [orb andb negb]; [rewrite ?andb_false_r, ?orb_true_l; cbn [orb andb negb]; lia|].
    destruct (Z.ltb_spec a1 4294967295); cbn [orb andb negb]; [rewrite ?andb_false_r, ?orb_true_l; cbn [orb andb negb]; lia|].
    destruct (Z.ltb_spec a2 4294967295); cbn [orb andb negb]; [rewrite ?andb_false_r, ?orb_true_l; cbn [orb andb negb]; lia|].
    destruct (Z.ltb_spec a3 4294967294); cbn [orb andb negb]; [rewrite ?andb_false_r, ?orb_true_l; cbn [orb andb negb]; lia|].
    destruct (Z.ltb_spec 4294967294 a3); cbn [orb andb negb]; [lia|].
    destruct (Z.ltb_spec a4 0xBAAEDCE6); cbn [orb andb negb]; [rewrite ?andb_false_r, ?orb_true_l; cbn [orb andb negb]; lia|].
    destruct (Z.ltb_spec 0xBAAEDCE6 a4); cbn [orb andb negb]; [lia|].
    destruct (Z.ltb_spec a5 0xAF48A03B); cbn [orb andb negb]; [rewrite ?andb_false_r, ?orb_true_l; cbn [orb andb negb]; lia|].
    destruct (Z.ltb_spec 0xAF48A03B a5); cbn [orb andb negb]; [lia|].
    destruct (Z.ltb_spec a6 0xBFD25E8C); cbn [orb andb negb]; [rewrite ?andb_false_r, ?orb_true_l; cbn [orb andb negb]; lia|].
    destruct (Z.ltb_spec 0xBFD25E8C a6); cbn [orb andb negb]; [lia|].
    rewrite andb_true_r. lia.
  - lia.
Qed.
(** Shorter strings make all three panic. *)
Theorem scalar_checks_panic : forall a, (length a < 32)%nat -> overflow64 a = Panic /\ overflow32 a = Panic /\ is_zero a = Panic.
Proof.
  intros a L.
  assert (NE : forall i n acc, word a i n acc <> Err).
  { intros i n. revert i. induction n as [|n IH]; intros i acc; [discriminate|]. cbn [word]. unfold idx. destruct (i <? 0); [discriminate|]. destruct (nth_error _ _); [apply IH|discriminate]. }
  assert (S64 : set_uint64 a = Panic).
  { unfold set_uint64. destruct (word a 0 8 0) eqn:E0; [|exfalso; exact (NE _ _ _ E0)|reflexivity]. cbn [bind].
    destruct (word a 8 8 0) eqn:E1; [|exfalso; exact (NE _ _ _ E1)|reflexivity]. cbn [bind].
    destruct (word a 16 8 0) eqn:E2; [|exfalso; exact (NE _ _ _ E2)|reflexivity]. cbn [bind].
    destruct (Z_lt_ge_dec (zlen a) 8); [rewrite word_short in E0; [discriminate|pose proof (zlen_nonneg a); lia|lia]|].
    destruct (Z_lt_ge_dec (zlen a) 16); [rewrite word_short in E1; [discriminate|lia|lia]|].
    destruct (Z_lt_ge_dec (zlen a) 24); [rewrite word_short in E2; [discriminate|lia|lia]|].
    rewrite word_short; [reflexivity|lia|unfold zlen; lia]. }
  assert (S32 : set_uint32 a = Panic).
  { unfold set_uint32. destruct (word a 0 4 0) eqn:E0; [|exfalso; exact (NE _ _ _ E0)|reflexivity]. cbn [bind].
    destruct (word a 4 4 0) eqn:E1; [|exfalso; exact (NE _ _ _ E1)|reflexivity]. cbn [bind].
    destruct (word a 8 4 0) eqn:E2; [|exfalso; exact (NE _ _ _ E2)|reflexivity]. cbn [bind].
    destruct (word a 12 4 0) eqn:E3; [|exfalso; exact (NE _ _ _ E3)|reflexivity]. cbn [bind].
    destruct (word a 16 4 0) eqn:E4; [|exfalso; exact (NE _ _ _ E4)|reflexivity]. cbn [bind].
    destruct (word a 20 4 0) eqn:E5; [|exfalso; exact (NE _ _ _ E5)|reflexivity]. cbn [bind].
    destruct (word a 24 4 0) eqn:E6; [|exfalso; exact (NE _ _ _ E6)|reflexivity]. cbn [bind].
    destruct (Z_lt_ge_dec (zlen a) 4); [rewrite word_short in E0; [discriminate|pose proof (zlen_nonneg a); lia|lia]|].
    destruct (Z_lt_ge_dec (zlen a) 8); [rewrite word_short in E1; [discriminate|lia|lia]|].
    destruct (Z_lt_ge_dec (zlen a) 12); [rewrite word_short in E2; [discriminate|lia|lia]|].
    destruct (Z_lt_ge_dec (zlen a) 16); [rewrite word_short in E3; [discriminate|lia|lia]|].
    destruct (Z_lt_ge_dec (zlen a) 20); [rewrite word_short in E4; [discriminate|lia|lia]|].
    destruct (Z_lt_ge_dec (zlen a) 24); [rewrite word_short in E5; [discriminate|lia|lia]|].
    destruct (Z_lt_ge_dec (zlen a) 28); [rewrite word_short in E6; [discriminate|lia|lia]|].
    rewrite word_short; [reflexivity|lia|unfold zlen; lia]. }
  unfold overflow64, overflow32, is_zero. rewrite S64, S32. auto.
Qed.


(** Example: order - 1, order and order + 1 (and a 33rd byte, which is ignored). *)
Example ex_checks : overflow64 (be_bytes 32 (secp_order - 1) ++ [7]) = Ok false /\ overflow32 (be_bytes 32 secp_order) = Ok true /\ is_zero (zeros 32) = Ok true.
Proof. vm_compute. auto. Qed.
