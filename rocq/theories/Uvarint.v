(** C51: unsigned LEB128 integers, as used by bytomTransaction and elastosTransaction. *)
From Coq Require Import ZArith List Bool Lia ZifyBool ZifyNat.
From Verif Require Import Go GoFacts Codes Reader.
Import ListNotations.
Open Scope Z_scope.
Ltac Zify.zify_post_hook ::= idtac.

(** encoding/binary PutUvarint: the bytes written; a uint64 takes at most ten. *)
Fixpoint put_uvarint (fuel : nat) (x : Z) : bytes :=
  match fuel with
  | O => []
  | S f => if x <? 0x80 then [x] else Z.lor (u8 x) 0x80 :: put_uvarint f (Z.shiftr x 7)
  end.
(** bytomTransaction/txUtil.go:7-16 and elastosTransaction/txUtils.go:66-75 uint64ToUvarint: the buffer has eight bytes, writing past it is a panic. *)
Definition uint64_to_uvarint (x : Z) : res bytes := let b := put_uvarint 10 x in if 8 <? zlen b then Panic else Ok b.
(** encoding/binary Uvarint. *)
Fixpoint uvarint (buf : bytes) (i s x : Z) : Z * Z :=
  match buf with
  | [] => (0, 0)
  | b :: r =>
      if i =? 10 then (0, - (i + 1)) else
      if b <? 0x80 then (if (9 <? i) || (i =? 9) && (1 <? b) then (0, - (i + 1)) else (Z.lor x (u64 (Z.shiftl b s)), i + 1))
      else uvarint r (i + 1) (s + 7) (Z.lor x (u64 (Z.shiftl (Z.land b 0x7F) s)))
  end.
(** bytomTransaction/txUtil.go:18-30 and elastosTransaction/txUtils.go:77-89 uvarintToUint64. *)
Definition uvarint_to_uint64 (buf : bytes) : Z :=
  match buf with [] => 0 | _ => let '(ret, length) := uvarint buf 0 0 0 in if length =? zlen buf then ret else 0 end.

(** ** Specification *)
(** A group of seven bits per byte, low group first; the top bit is set on all bytes but the last. *)
Fixpoint rleb (l : bytes) : option (Z * bytes) :=
  match l with
  | [] => None
  | b :: r => if b <? 128 then Some (b, r) else match rleb r with Some (n, r') => Some (b - 128 + 128 * n, r') | None => None end
  end.
(** ** Proofs *)
Lemma lor_add x y k : 0 <= k -> 0 <= x < 2 ^ k -> 0 <= y -> Z.lor x (y * 2 ^ k) = x + y * 2 ^ k.
Proof.
  intros K X Y. rewrite Z.add_nocarry_lxor; [symmetry; apply Z.lxor_lor|]; apply Z.bits_inj'; intros n N; rewrite Z.land_spec, Z.bits_0, Z.mul_pow2_bits by lia; destruct (Z_lt_dec n k).
  1, 3: rewrite (Z.testbit_neg_r y) by lia; apply andb_false_r.
  all: replace (Z.testbit x n) with false by (rewrite <- (Z.mod_small x (2 ^ k)) by lia; rewrite Z.mod_pow2_bits_high by lia; reflexivity); reflexivity.
Qed.
Lemma low_byte x : 0 <= x -> Z.lor (u8 x) 0x80 = x mod 128 + 128.
Proof.
  intros X. apply Z.bits_inj'. intros n N. rewrite Z.lor_spec. unfold u8. change (2 ^ 8) with (2 ^ 8)%Z.
  replace (x mod 128 + 128) with (Z.lor (x mod 2 ^ 7) (1 * 2 ^ 7)) by (rewrite lor_add; [reflexivity|lia|apply Z.mod_pos_bound; lia|lia]).
  rewrite Z.lor_spec. change 0x80 with (1 * 2 ^ 7). destruct (Z_lt_dec n 7).
  - rewrite !Z.mod_pow2_bits_low by lia. reflexivity.
  - rewrite (Z.mod_pow2_bits_high x 7) by lia. cbn [orb]. destruct (Z.eq_dec n 7) as [->|].
    + replace (Z.testbit (1 * 2 ^ 7) 7) with true by reflexivity. apply orb_true_r.
    + rewrite Z.mod_pow2_bits_high by lia. reflexivity.
Qed.
Lemma put_step f x : 0 <= x -> put_uvarint (S f) x = if x <? 128 then [x] else (x mod 128 + 128) :: put_uvarint f (x / 128).
Proof. intros X. cbn [put_uvarint]. rewrite low_byte by exact X. rewrite Z.shiftr_div_pow2 by lia. reflexivity. Qed.
Lemma put_reads f : forall x, (0 < f)%nat -> 0 <= x < 128 ^ Z.of_nat f -> reads rleb (put_uvarint f x) x.
Proof.
  induction f as [|f IH]; intros x F X rest; [lia|]. rewrite put_step by lia. destruct (x <? 128) eqn:E; [cbn [app rleb]; rewrite E; reflexivity|].
  cbn [app rleb]. pose proof (Z.mod_pos_bound x 128 ltac:(lia)). replace (x mod 128 + 128 <? 128) with false by lia.
  rewrite Nat2Z.inj_succ, Z.pow_succ_r in X by lia. destruct f as [|f]; [change (128 ^ Z.of_nat 0) with 1 in X; lia|]. rewrite (IH (x / 128)); [do 2 f_equal; Z.div_mod_to_equations; lia|lia|]. split; [apply Z.div_pos; lia|apply Z.div_lt_upper_bound; lia].
Qed.
Lemma put_pos f x : (0 < f)%nat -> 0 <= x -> 1 <= zlen (put_uvarint f x).
Proof. intros F X. destruct f as [|f]; [lia|]. rewrite put_step by exact X. destruct (x <? 128); [change (zlen [x]) with 1; lia|]. rewrite zlen_cons. pose proof (zlen_nonneg (put_uvarint f (x / 128))). lia. Qed.
Lemma put_len f : forall x n, 0 <= x -> (0 < n < f)%nat -> zlen (put_uvarint f x) <= Z.of_nat n <-> x < 128 ^ Z.of_nat n.
Proof.
  induction f as [|f IH]; intros x n X N; [lia|]. rewrite put_step by lia. destruct (x <? 128) eqn:E.
  - change (zlen [x]) with 1. split; [intros _|lia]. assert (128 ^ 1 <= 128 ^ Z.of_nat n) by (apply Z.pow_le_mono_r; lia). lia.
  - rewrite zlen_cons. destruct n as [|[|n]]; [lia| |].
    + assert (P : 1 <= zlen (put_uvarint f (x / 128))) by (apply put_pos; [lia|apply Z.div_pos; lia]). change (128 ^ Z.of_nat 1) with 128. change (Z.of_nat 1) with 1. lia.
    + pose proof (Z.div_pos x 128 X ltac:(lia)) as D. specialize (IH (x / 128) (S n) D ltac:(lia)). replace (128 ^ Z.of_nat (S (S n))) with (128 * 128 ^ Z.of_nat (S n)) by (rewrite (Nat2Z.inj_succ (S n)), Z.pow_succ_r by lia; reflexivity).
      split; intros Q; [assert (Q' : x / 128 < 128 ^ Z.of_nat (S n)) by (apply IH; lia)|assert (Q' : zlen (put_uvarint f (x / 128)) <= Z.of_nat (S n)) by (apply IH; apply Z.div_lt_upper_bound; lia); lia]. Z.div_mod_to_equations; lia.
Qed.
Lemma put_bytes f : forall x, 0 <= x -> is_bytes (put_uvarint f x).
Proof.
  induction f as [|f IH]; intros x X; [constructor|]. rewrite put_step by exact X. destruct (x <? 128) eqn:E.
  - repeat constructor; lia.
  - pose proof (Z.mod_pos_bound x 128 ltac:(lia)). constructor; [split; lia|apply IH, Z.div_pos; lia].
Qed.
(** A run of seven-bit groups, read by the loop. *)
Lemma uvarint_reads buf : forall i x n, is_bytes buf -> rleb buf = Some (n, []) -> 0 <= i -> i + zlen buf <= 9 -> 0 <= x < 2 ^ (7 * i) -> uvarint buf i (7 * i) x = (x + n * 2 ^ (7 * i), i + zlen buf) /\ 0 <= n < 2 ^ (7 * zlen buf).
Proof.
  induction buf as [|b buf IH]; intros i x n B E I L X; [discriminate|]. cbn [uvarint rleb] in *. apply is_bytes_cons in B as [Hb B]. unfold is_byte in Hb. rewrite zlen_cons in *. pose proof (zlen_nonneg buf) as Lb. replace (i =? 10) with false by lia.
  assert (W : forall v, 0 <= v < 128 -> u64 (Z.shiftl v (7 * i)) = v * 2 ^ (7 * i)).
  { intros v V. rewrite Z.shiftl_mul_pow2 by lia. unfold u64. apply Z.mod_small. assert (2 ^ (7 * i) <= 2 ^ 56) by (apply Z.pow_le_mono_r; lia). assert (0 < 2 ^ (7 * i)) by (apply Z.pow_pos_nonneg; lia). change (2 ^ 64) with (256 * 2 ^ 56). nia. }
  assert (P : 0 < 2 ^ (7 * i)) by (apply Z.pow_pos_nonneg; lia).
  destruct (b <? 128) eqn:Eb.
  - injection E as <- ->. change (zlen (@nil Z)) with 0 in *. replace ((9 <? i) || (i =? 9) && (1 <? b)) with false by lia. rewrite W by lia. rewrite lor_add by lia. split; [f_equal; lia|change (2 ^ (7 * (1 + 0))) with 128; lia].
  - destruct (rleb buf) as [[m r]|] eqn:R; [|discriminate]. assert (En : n = b - 128 + 128 * m) by congruence. assert (r = []) by congruence. subst n r. clear E. assert (Lo : Z.land b 127 = b - 128) by (change 127 with (Z.ones 7); rewrite Z.land_ones by lia; change (2 ^ 7) with 128; Z.div_mod_to_equations; lia). rewrite Lo, W, lor_add by lia.
    replace (7 * i + 7) with (7 * (i + 1)) by lia. assert (P7 : 2 ^ (7 * (i + 1)) = 128 * 2 ^ (7 * i)) by (replace (7 * (i + 1)) with (7 + 7 * i) by lia; rewrite Z.pow_add_r by lia; reflexivity). destruct (IH (i + 1) (x + (b - 128) * 2 ^ (7 * i)) m B eq_refl ltac:(lia) ltac:(lia)) as [E M]; [rewrite P7; nia|]. rewrite E, P7. split; [f_equal; ring|].
    replace (7 * (1 + zlen buf)) with (7 + 7 * zlen buf) by lia. rewrite Z.pow_add_r by lia. change (2 ^ 7) with 128. lia.
Qed.
(** The bytes written are the groups of the number; the encoder crashes exactly from 2^56 on. *)
Theorem uvarint_written : forall x, 0 <= x < 2 ^ 64 ->
  (x < 2 ^ 56 /\ exists b, uint64_to_uvarint x = Ok b /\ is_bytes b /\ 1 <= zlen b <= 8 /\ reads rleb b x) \/ (2 ^ 56 <= x /\ uint64_to_uvarint x = Panic).
Proof.
  intros x X. unfold uint64_to_uvarint. cbv zeta. pose proof (put_len 10 x 8 ltac:(lia) ltac:(lia)) as L. change (128 ^ Z.of_nat 8) with (2 ^ 56) in L. change (Z.of_nat 8) with 8 in L. destruct (8 <? zlen (put_uvarint 10 x)) eqn:E; [right; split; [lia|reflexivity]|]. left. split; [lia|]. exists (put_uvarint 10 x). split; [reflexivity|].
  split; [apply put_bytes; lia|]. split; [|apply put_reads; [lia|change (128 ^ Z.of_nat 10) with (2 ^ 70); lia]]. split; [apply put_pos; lia|lia].
Qed.
Lemma uvarint_to_uint64_leb b x : is_bytes b -> zlen b <= 9 -> rleb b = Some (x, []) -> uvarint_to_uint64 b = x.
Proof.
  intros B L R. destruct b as [|c b]; [discriminate|]. unfold uvarint_to_uint64. destruct (uvarint_reads (c :: b) 0 0 x B R ltac:(lia) ltac:(lia)) as [E _]; [cbn; lia|]. change (7 * 0) with 0 in E. rewrite E. rewrite Z.add_0_l, Z.eqb_refl. lia.
Qed.
Theorem uvarint_round_trip : forall x b, 0 <= x < 2 ^ 64 -> uint64_to_uvarint x = Ok b -> uvarint_to_uint64 b = x.
Proof.
  intros x b X E. destruct (uvarint_written x X) as [(_ & b' & E' & B & L & R)|[_ E']]; [|congruence]. rewrite E in E'. injection E' as <-. apply uvarint_to_uint64_leb; [exact B|lia|]. specialize (R []). rewrite app_nil_r in R. exact R.
Qed.
(** The shortest such bytes. *)
Lemma rleb_bound b : forall x, is_bytes b -> rleb b = Some (x, []) -> 0 <= x < 128 ^ zlen b.
Proof.
  induction b as [|c b IH]; intros x B E; [discriminate|]. cbn [rleb] in E. apply is_bytes_cons in B as [Hc B]. unfold is_byte in Hc. rewrite zlen_cons, Z.pow_add_r by (pose proof (zlen_nonneg b); lia). change (128 ^ 1) with 128. destruct (c <? 128) eqn:Ec.
  - injection E as <- ->. change (zlen (@nil Z)) with 0. lia.
  - destruct (rleb b) as [[m r]|]; [|discriminate]. assert (En : x = c - 128 + 128 * m) by congruence. assert (r = []) by congruence. subst x r. specialize (IH m B eq_refl). lia.
Qed.
Theorem uvarint_shortest : forall x b b', 0 <= x < 2 ^ 64 -> uint64_to_uvarint x = Ok b -> is_bytes b' -> rleb b' = Some (x, []) -> zlen b <= zlen b'.
Proof.
  intros x b b' X E B R. destruct b' as [|c b']; [discriminate|]. apply rleb_bound in R; [|exact B]. unfold uint64_to_uvarint in E. cbv zeta in E. destruct (8 <? zlen (put_uvarint 10 x)) eqn:L; [discriminate|].
  apply (f_equal (fun r => match r with Ok v => v | _ => [] end)) in E. cbv beta iota in E. subst b. destruct (Z_lt_dec (zlen (c :: b')) 10) as [S|S]; [|lia]. pose proof (put_len 10 x (length (c :: b')) ltac:(lia)) as P. unfold zlen in *. apply P; [cbn [length]; cbn [length] in S; lia|lia].
Qed.
Example uvarint_300 : uint64_to_uvarint 300 = Ok [0xAC; 2] /\ rleb [0xAC; 2] = Some (300, []) /\ uvarint_to_uint64 [0xAC; 2] = 300.
Proof. repeat split. Qed.
Example uvarint_boundary : uint64_to_uvarint (2 ^ 56) = Panic /\ exists b, uint64_to_uvarint (2 ^ 56 - 1) = Ok b.
Proof. split; [reflexivity|eexists; reflexivity]. Qed.

Print Assumptions uvarint_written.
Print Assumptions uvarint_round_trip.
Print Assumptions uvarint_shortest.
