(** C38, C39, C74: Polkadot compact integers, eras and signed transactions. *)
From Coq Require Import ZArith List Bool Lia ZifyBool ZifyNat.
From Verif Require Import Go GoFacts GoFacts2 Codes PolkadotModel.
Import ListNotations.
Open Scope Z_scope.
Ltac Zify.zify_post_hook ::= idtac.

(** ** Specification *)
(** SCALE compact integers: two mode bits at the bottom of the first byte; the least number of bytes in the fourth mode. *)
Definition scale_compact (v : Z) (out : bytes) : Prop :=
  (0 <= v < 2 ^ 6 /\ out = [4 * v]) \/
  (2 ^ 6 <= v < 2 ^ 14 /\ out = le_bytes 2 (4 * v + 1)) \/
  (2 ^ 14 <= v < 2 ^ 30 /\ out = le_bytes 4 (4 * v + 2)) \/
  (2 ^ 30 <= v /\ exists k : nat, (4 <= k)%nat /\ 256 ^ (Z.of_nat k - 1) <= v < 256 ^ Z.of_nat k /\ out = (4 * (Z.of_nat k - 4) + 3) :: le_bytes k v).
(** Reading a compact integer from the front of a byte string. *)
Definition scale_read (l : bytes) : option (Z * bytes) :=
  match l with
  | [] => None
  | b :: r =>
      let m := b mod 4 in
      let take n k := if (length l <? n)%nat then None else Some (k (le_num (firstn n l)), skipn n l) in
      if m =? 0 then Some (b / 4, r)
      else if m =? 1 then take 2%nat (fun x => x / 4)
      else if m =? 2 then take 4%nat (fun x => x / 4)
      else take (S (Z.to_nat (b / 4) + 4)) (fun x => x / 256)
  end.
(** Substrate's reading of the two bytes of a mortal era: period and phase. *)
Definition era_read (b0 b1 : Z) : option (Z * Z) :=
  let e := b0 + 256 * b1 in
  let period := 2 * 2 ^ (e mod 16) in
  let phase := e / 16 * Z.max 1 (period / 4096) in
  if (4 <=? period) && (phase <? period) then Some (period, phase) else None.

(** ** Lemmas *)
Lemma le_bytes_snoc n : forall v, le_bytes (S n) v = le_bytes n v ++ [v / 256 ^ Z.of_nat n mod 256].
Proof.
  induction n as [|n IH]; intros v; [cbn [le_bytes app Z.of_nat]; rewrite Z.pow_0_r, Z.div_1_r; reflexivity|].
  change (le_bytes (S (S n)) v) with (v mod 256 :: le_bytes (S n) (v / 256)). rewrite IH. cbn [le_bytes app]. f_equal. f_equal. f_equal.
  rewrite Z.div_div by (try apply Z.pow_pos_nonneg; lia). f_equal. f_equal. rewrite Nat2Z.inj_succ, Z.pow_succ_r by lia. reflexivity.
Qed.
Lemma le_bytes_extend k : forall v n, 0 <= v < 256 ^ Z.of_nat k -> le_bytes k v ++ zeros n = le_bytes (k + n) v.
Proof.
  induction k as [|k IH]; intros v n B.
  - cbn [le_bytes app plus]. assert (v = 0) by (cbn in B; lia). subst. induction n as [|n IH]; [reflexivity|]. cbn [zeros repeat le_bytes]. f_equal. exact IH.
  - cbn [le_bytes app plus]. f_equal. apply IH. rewrite Nat2Z.inj_succ, Z.pow_succ_r in B by lia. split; [apply Z.div_pos; lia|apply Z.div_lt_upper_bound; lia].
Qed.
Lemma remove_spec n : forall v, 0 < v < 256 ^ Z.of_nat n -> exists k, (1 <= k <= n)%nat /\ 256 ^ (Z.of_nat k - 1) <= v < 256 ^ Z.of_nat k /\ remove_extra_le (le_bytes n v) = Ok (le_bytes k v).
Proof.
  unfold remove_extra_le. induction n as [|n IH]; intros v B; [cbn in B; lia|].
  rewrite le_bytes_snoc, rev_app_distr. cbn [rev app drop0]. 
  assert (P : 0 < 256 ^ Z.of_nat n) by (apply Z.pow_pos_nonneg; lia). rewrite Nat2Z.inj_succ, Z.pow_succ_r in B by lia.
  assert (Q : v / 256 ^ Z.of_nat n mod 256 = v / 256 ^ Z.of_nat n) by (apply Z.mod_small; split; [apply Z.div_pos; lia|apply Z.div_lt_upper_bound; lia]).
  destruct (v / 256 ^ Z.of_nat n mod 256 =? 0) eqn:E.
  - assert (v < 256 ^ Z.of_nat n) by (rewrite Q in E; apply Z.eqb_eq in E; apply Z.div_small_iff in E; lia).
    destruct (IH v ltac:(lia)) as (k & K & R & F). exists k. split; [lia|]. split; [exact R|exact F].
  - exists (S n). split; [lia|]. split.
    + replace (Z.of_nat (S n) - 1) with (Z.of_nat n) by lia. rewrite Nat2Z.inj_succ, Z.pow_succ_r by lia. split; [|lia].
      destruct (Z_lt_le_dec v (256 ^ Z.of_nat n)); [|assumption]. rewrite Z.div_small in E by lia. discriminate.
    + cbn [bind]. rewrite le_bytes_snoc. cbn [rev]. rewrite rev_involutive. reflexivity.
Qed.
Lemma remove_zero n : remove_extra_le (le_bytes n 0) = Panic.
Proof.
  unfold remove_extra_le. induction n as [|n IH]; [reflexivity|]. rewrite le_bytes_snoc, rev_app_distr. cbn [rev app drop0]. rewrite Z.div_0_l by (apply Z.pow_nonzero; lia). exact IH.
Qed.
Lemma range_sweep (f : Z -> bool) n : forallb f (map Z.of_nat (seq 0 n)) = true -> forall b, 0 <= b < Z.of_nat n -> f b = true.
Proof. intros F b B. rewrite forallb_forall in F. apply F. apply in_map_iff. exists (Z.to_nat b). split; [lia|]. apply in_seq. lia. Qed.
Lemma repl_bits b : 0 <= b < 256 -> Z.shiftr (Z.land b 192) 6 = b / 64.
Proof. intros B. apply Z.eqb_eq. apply (range_sweep (fun b => Z.shiftr (Z.land b 192) 6 =? b / 64) 256); [vm_compute; reflexivity|lia]. Qed.
Lemma shift_or b c : 0 <= b < 256 -> 0 <= c < 4 -> Z.lor (u8 (Z.shiftl b 2)) c = (4 * b + c) mod 256.
Proof.
  intros B C. apply Z.eqb_eq. pose proof (range_sweep (fun b => forallb (fun c => Z.lor (u8 (Z.shiftl b 2)) c =? (4 * b + c) mod 256) [0; 1; 2; 3]) 256 ltac:(vm_compute; reflexivity) b ltac:(lia)) as F.
  cbv beta in F. rewrite forallb_forall in F. apply F. assert (D : c = 0 \/ c = 1 \/ c = 2 \/ c = 3) by lia. destruct D as [-> |[-> |[-> | ->]]]; cbn [In]; auto.
Qed.
Lemma shift2_spec n : forall v c, 0 <= v < 256 ^ Z.of_nat n -> 0 <= c < 4 -> shift2 c false (le_bytes n v) = (le_bytes n (4 * v + c), (4 * v + c) / 256 ^ Z.of_nat n).
Proof.
  induction n as [|n IH]; intros v c B C.
  - cbn [le_bytes shift2]. assert (v = 0) by (cbn in B; lia). subst v. rewrite Z.pow_0_r, Z.div_1_r. reflexivity.
  - cbn [le_bytes shift2]. pose proof (Z.mod_pos_bound v 256 ltac:(lia)). rewrite repl_bits by assumption. rewrite shift_or by assumption.
    rewrite Nat2Z.inj_succ, Z.pow_succ_r in B |- * by lia. 
    assert (X : 4 * (v / 256) + v mod 256 / 64 = (4 * v + c) / 256) by (Z.div_mod_to_equations; lia).
    assert (Y : 4 * (v mod 256) + c = (4 * v + c) mod 256 + 256 * (v mod 256 / 64)) by (Z.div_mod_to_equations; lia).
    rewrite IH. 2: { split; [apply Z.div_pos; lia|apply Z.div_lt_upper_bound; lia]. } 2: { Z.div_mod_to_equations; lia. }
    rewrite X. rewrite Z.div_div by (try apply Z.pow_pos_nonneg; lia). f_equal. f_equal. rewrite Y. rewrite (Z.mul_comm 256 (v mod 256 / 64)), Z_mod_plus_full. apply Z.mod_mod. lia.
Qed.
Lemma compact_of n m v : (n = 1%nat /\ m = 0) \/ (n = 2%nat /\ m = 1) \/ (n = 4%nat /\ m = 2) -> 0 <= v -> 4 * v < 256 ^ Z.of_nat n ->
  bytes_to_compact (le_bytes n v) = Ok (le_bytes n (4 * v + m)).
Proof.
  intros D B0 B. unfold bytes_to_compact. rewrite zlen_le_bytes. replace (4 <? Z.of_nat n) with false by (destruct D as [[-> _]|[[-> _]|[-> _]]]; reflexivity).
  assert (M : (if Z.of_nat n =? 1 then 0 else if Z.of_nat n =? 2 then 1 else 2) = m) by (destruct D as [[-> ->]|[[-> ->]|[-> ->]]]; reflexivity). rewrite M.
  assert (MB : 0 <= m < 4) by lia. assert (W : (if m =? 0 then 1 else if m =? 1 then 2 else 4) = Z.of_nat n) by (destruct D as [[-> ->]|[[-> ->]|[-> ->]]]; reflexivity). rewrite W.
  destruct n as [|n]; [lia|]. cbn [le_bytes shift2]. pose proof (Z.mod_pos_bound v 256 ltac:(lia)). rewrite repl_bits by assumption. rewrite Nat2Z.inj_succ, Z.pow_succ_r in B by lia.
  assert (P : 0 < 256 ^ Z.of_nat n) by (apply Z.pow_pos_nonneg; lia).
  assert (X : forall c, 0 <= c < 4 -> 4 * (v / 256) + v mod 256 / 64 = (4 * v + c) / 256) by (intros c Hc; Z.div_mod_to_equations; lia).
  rewrite shift2_spec; [|split; [apply Z.div_pos; lia|apply Z.div_lt_upper_bound; lia]|Z.div_mod_to_equations; lia]. rewrite (X m MB).
  assert (Z0 : (4 * v + m) / 256 / 256 ^ Z.of_nat n = 0). { rewrite <- (X m MB), (X 0) by lia. apply Z.div_small. split; [apply Z.div_pos; lia|apply Z.div_lt_upper_bound; lia]. }
  rewrite Z0. change (negb (0 =? 0)) with false. cbv iota. rewrite shift_or by assumption.
  assert (Y : 4 * (v mod 256) + m = (4 * v + m) mod 256 + 256 * (v mod 256 / 64)) by (Z.div_mod_to_equations; lia).
  rewrite Y. rewrite (Z.mul_comm 256 (v mod 256 / 64)), Z_mod_plus_full, Z.mod_mod by lia. unfold extend_le. rewrite zlen_cons, zlen_le_bytes. replace (Z.to_nat (Z.of_nat (S n) - (1 + Z.of_nat n))) with 0%nat by lia. cbn [zeros repeat]. rewrite app_nil_r. reflexivity.
Qed.
Lemma pow256_lt a b : 0 <= a -> 256 ^ a < 256 ^ b -> a < b.
Proof. intros A E. destruct (Z_lt_le_dec a b); [assumption|]. assert (256 ^ b <= 256 ^ a) by (apply Z.pow_le_mono_r; lia). lia. Qed.
Lemma small_bytes v n : 0 < v < 2 ^ 30 -> compact_length (u32 v) = Z.of_nat n -> v < 256 ^ Z.of_nat n -> 1 <= Z.of_nat n <= 4 ->
  encode_bytes v = bytes_to_compact (le_bytes n v).
Proof.
  intros B L V N. assert (U : u32 v = v) by (unfold u32; apply Z.mod_small; lia). rewrite U in *. unfold encode_bytes. replace (1073741823 <? v) with false by lia. rewrite U.
  destruct (remove_spec 4 v) as (k & K & R & E); [change (256 ^ Z.of_nat 4) with (2 ^ 32); lia|]. rewrite E. cbn [bind]. cbv zeta. rewrite L, zlen_le_bytes.
  assert (KN : Z.of_nat k - 1 < Z.of_nat n) by (apply pow256_lt; lia).
  rewrite le_bytes_extend by lia. replace (k + Z.to_nat (Z.of_nat n - Z.of_nat k))%nat with n by lia. replace (Z.of_nat n =? 5) with false by lia. destruct (bytes_to_compact _); reflexivity.
Qed.
Lemma bytes_small v : 0 < v < 2 ^ 30 -> exists b, encode_bytes v = Ok b /\ scale_compact v b.
Proof.
  intros B. assert (U : u32 v = v) by (unfold u32; apply Z.mod_small; lia).
  destruct (Z_lt_le_dec v (2 ^ 6)) as [C|C]; [|destruct (Z_lt_le_dec v (2 ^ 14)) as [D|D]].
  - rewrite (small_bytes v 1); [|lia|rewrite U; unfold compact_length; replace (v <=? 63) with true by lia; reflexivity|change (256 ^ Z.of_nat 1) with 256; lia|lia].
    rewrite (compact_of 1 0) by (auto; change (256 ^ Z.of_nat 1) with 256; lia). eexists. split; [reflexivity|]. left. split; [lia|]. cbn [le_bytes]. rewrite Z.mod_small by lia. f_equal. lia.
  - rewrite (small_bytes v 2); [|lia|rewrite U; unfold compact_length; replace (v <=? 63) with false by lia; replace (v <=? 16383) with true by lia; reflexivity|change (256 ^ Z.of_nat 2) with 65536; lia|lia].
    rewrite (compact_of 2 1) by (auto; change (256 ^ Z.of_nat 2) with 65536; lia). eexists. split; [reflexivity|]. right. left. split; [lia|reflexivity].
  - rewrite (small_bytes v 4); [|lia|rewrite U; unfold compact_length; replace (v <=? 63) with false by lia; replace (v <=? 16383) with false by lia; replace (v <=? 1073741823) with true by lia; reflexivity|change (256 ^ Z.of_nat 4) with (2 ^ 32); lia|lia].
    rewrite (compact_of 4 2) by (auto; change (256 ^ Z.of_nat 4) with (2 ^ 32); lia). eexists. split; [reflexivity|]. right. right. left. split; [lia|reflexivity].
Qed.
Lemma log2_range v a b : 0 <= a -> 2 ^ a <= v < 2 ^ b -> a <= Z.log2 v < b.
Proof.
  intros A [L U]. assert (0 < 2 ^ a) by (apply Z.pow_pos_nonneg; lia). split; [apply Z.log2_le_pow2; lia|]. assert (0 < v) by lia. apply Z.log2_lt_pow2; lia.
Qed.
Lemma prefix_small v k : 0 < v <= 2 ^ 63 -> 1 <= k -> 256 ^ (k - 1) <= v < 256 ^ k -> 4 <= k <= 8 -> get_prefix v = 4 * (k - 4) + 3.
Proof.
  intros B K0 K1 K. unfold get_prefix, leading_zeros, bit_len.
  assert (S : Z.abs (s64 v) = v). { unfold s64. destruct (Z.eq_dec v (2 ^ 63)) as [-> |N]; [reflexivity|]. rewrite Z.mod_small by lia. lia. }
  destruct (s64 v =? 0) eqn:Z0; [rewrite <- S in B; assert (s64 v = 0) by lia; lia|]. rewrite S.
  replace 256 with (2 ^ 8) in K1 by reflexivity. rewrite <- !Z.pow_mul_r in K1 by lia. apply log2_range in K1; [|lia].
  assert (Q : (64 - (Z.log2 v + 1)) / 8 = 8 - k) by (Z.div_mod_to_equations; lia). rewrite Q. unfold u8. rewrite Z.mod_small; lia.
Qed.
Lemma prefix_large v : 2 ^ 63 < v < 2 ^ 64 -> get_prefix v = 19 <-> v <= 2 ^ 64 - 2 ^ 56.
Proof.
  intros B. unfold get_prefix, leading_zeros, bit_len.
  assert (S : s64 v = v - 2 ^ 64). { unfold s64. replace (v + 2 ^ 63) with ((v - 2 ^ 63) + 1 * 2 ^ 64) by lia. rewrite Z_mod_plus_full, Z.mod_small by lia. lia. }
  rewrite S. replace (v - 2 ^ 64 =? 0) with false by lia. replace (Z.abs (v - 2 ^ 64)) with (2 ^ 64 - v) by lia.
  assert (L : 0 <= Z.log2 (2 ^ 64 - v) < 63) by (apply log2_range; lia). unfold u8. split.
  - intros E. destruct (Z_le_gt_dec v (2 ^ 64 - 2 ^ 56)); [assumption|exfalso]. assert (Z.log2 (2 ^ 64 - v) < 56) by (apply Z.log2_lt_pow2; lia).
    change (2 ^ 8) with 256 in E. set (q := (64 - (Z.log2 (2 ^ 64 - v) + 1)) / 8) in *. assert (1 <= q <= 7) by (unfold q; Z.div_mod_to_equations; lia). clearbody q. 
    assert (D : q = 1 \/ q = 2 \/ q = 3 \/ q = 4 \/ q = 5 \/ q = 6 \/ q = 7) by lia. destruct D as [D|[D|[D|[D|[D|[D|D]]]]]]; rewrite D in E; discriminate E.
  - intros V. assert (56 <= Z.log2 (2 ^ 64 - v)) by (apply Z.log2_le_pow2; lia).
    assert (Q : (64 - (Z.log2 (2 ^ 64 - v) + 1)) / 8 = 0) by (Z.div_mod_to_equations; lia). rewrite Q. reflexivity.
Qed.
Lemma bytes_big v : 2 ^ 30 <= v < 2 ^ 64 -> exists k : nat, 4 <= Z.of_nat k <= 8 /\ 256 ^ (Z.of_nat k - 1) <= v < 256 ^ Z.of_nat k /\ encode_bytes v = Ok (get_prefix v :: le_bytes k v).
Proof.
  intros B. unfold encode_bytes. replace (1073741823 <? v) with true by lia. destruct (remove_spec 8 v) as (k & K & R & E); [change (256 ^ Z.of_nat 8) with (2 ^ 64); lia|]. exists k.
  assert (3 < Z.of_nat k) by (apply pow256_lt; [lia|]; change (256 ^ 3) with (2 ^ 24); lia). split; [lia|]. split; [exact R|]. rewrite E. reflexivity.
Qed.
Lemma scale_unique v a b : scale_compact v a -> scale_compact v b -> a = b.
Proof.
  unfold scale_compact. intros [[A ->]|[[A ->]|[[A ->]|[A (k & K & R & ->)]]]] [[B ->]|[[B ->]|[[B ->]|[B (k' & K' & R' & ->)]]]]; try reflexivity; try (exfalso; lia).
  assert (Z.of_nat k - 1 < Z.of_nat k') by (apply pow256_lt; lia). assert (Z.of_nat k' - 1 < Z.of_nat k) by (apply pow256_lt; lia). assert (k = k') by lia. subst. reflexivity.
Qed.
Lemma scale_bytes v a : v < 2 ^ 64 -> scale_compact v a -> is_bytes a /\ zlen a <= 9 /\ a <> [].
Proof.
  intros V. unfold scale_compact. intros [[A ->]|[[A ->]|[[A ->]|[A (k & K & R & ->)]]]].
  - split; [constructor; [unfold is_byte; lia|constructor]|]. split; [cbn; lia|discriminate].
  - split; [apply le_bytes_is_bytes|]. rewrite zlen_le_bytes. split; [lia|discriminate].
  - split; [apply le_bytes_is_bytes|]. rewrite zlen_le_bytes. split; [lia|discriminate].
  - assert (Z.of_nat k - 1 < 8) by (apply pow256_lt; [lia|]; change (256 ^ 8) with (2 ^ 64); lia).
    split; [apply is_bytes_cons; split; [unfold is_byte; lia|apply le_bytes_is_bytes]|]. rewrite zlen_cons, zlen_le_bytes. split; [lia|discriminate].
Qed.
Lemma hex_prefix_encode b : is_bytes b -> hex_prefix (hex_encode b) = b.
Proof.
  induction 1 as [|x b Hx Hb IH]; [reflexivity|]. cbn [hex_encode flat_map app hex_prefix]. unfold is_byte in Hx.
  rewrite !hex_val_digit by (Z.div_mod_to_equations; lia). fold (hex_encode b). rewrite IH. f_equal. Z.div_mod_to_equations; lia.
Qed.
Lemma hex_prefix_decode s b : hex_decode s = Ok b -> hex_prefix s = b.
Proof.
  revert b. induction s as [| |a c s IH] using pair_ind; intros b E; cbn [hex_decode hex_prefix] in *; [congruence|discriminate|].
  destruct (hex_val a), (hex_val c); try discriminate. apply bind_ok in E as (t & Et & E). injection E as <-. rewrite (IH _ Et). reflexivity.
Qed.

(** ** C38: compact integers *)
(** For every non-zero value the text is the SCALE compact encoding, except for the values above 2^64 - 2^56. *)
Theorem compact_encoding_exact : forall v, 0 < v < 2 ^ 64 -> exists b, encode v = Ok (hex_encode b) /\ is_bytes b /\ (scale_compact v b <-> v <= 2 ^ 64 - 2 ^ 56).
Proof.
  intros v B. unfold encode. destruct (Z_lt_le_dec v (2 ^ 30)) as [S|S].
  - destruct (bytes_small v ltac:(lia)) as (b & E & C). exists b. rewrite E. split; [reflexivity|]. split; [apply (scale_bytes v); [lia|exact C]|]. split; [lia|intros _; exact C].
  - destruct (bytes_big v ltac:(lia)) as (k & K & R & E). exists (get_prefix v :: le_bytes k v). rewrite E. split; [reflexivity|].
    split; [apply is_bytes_cons; split; [unfold get_prefix, u8, is_byte; change (2 ^ 8) with 256; apply Z.mod_pos_bound; lia|apply le_bytes_is_bytes]|].
    destruct (Z_le_gt_dec v (2 ^ 63)) as [T|T].
    + split; [lia|]. intros _. right. right. right. split; [lia|]. exists k. split; [lia|]. split; [exact R|]. rewrite (prefix_small v (Z.of_nat k)) by lia. reflexivity.
    + assert (K8 : k = 8%nat). { assert (7 < Z.of_nat k) by (apply pow256_lt; [lia|]; change (256 ^ 7) with (2 ^ 56); lia). lia. } subst k.
      assert (C : scale_compact v (19 :: le_bytes 8 v)) by (right; right; right; split; [lia|]; exists 8%nat; split; [lia|]; split; [exact R|reflexivity]).
      rewrite <- prefix_large by lia. split.
      * intros D. pose proof (scale_unique _ _ _ C D) as E2. injection E2. lia.
      * intros ->. exact C.
Qed.
Theorem compact_zero_panics : encode 0 = Panic.
Proof. reflexivity. Qed.
Lemma scale_read_mode n (w rest : bytes) : length w = n -> (hd 0 w mod 4 = 1 /\ n = 2%nat \/ hd 0 w mod 4 = 2 /\ n = 4%nat) -> scale_read (w ++ rest) = Some (le_num w / 4, rest).
Proof.
  intros L M. destruct w as [|x w]; [cbn [length] in L; destruct M as [[_ M]|[_ M]]; subst n; discriminate|]. cbn [hd] in M. set (v := x :: w) in *.
  change (v ++ rest) with (x :: w ++ rest). unfold scale_read. cbv zeta. change (x :: w ++ rest) with (v ++ rest). rewrite app_length, L.
  assert (F : firstn n (v ++ rest) = v /\ skipn n (v ++ rest) = rest) by (rewrite firstn_app, skipn_app, L, Nat.sub_diag, firstn_all2, skipn_all2 by lia; cbn [firstn skipn app]; rewrite app_nil_r; auto). destruct F as [F1 F2].
  destruct M as [[-> ->]|[-> ->]].
  - change (1 =? 0) with false. change (1 =? 1) with true. cbv iota. replace (2 + length rest <? 2)%nat with false by lia. rewrite F1, F2. reflexivity.
  - change (2 =? 0) with false. change (2 =? 1) with false. change (2 =? 2) with true. cbv iota. replace (4 + length rest <? 4)%nat with false by lia. rewrite F1, F2. reflexivity.
Qed.
(** The SCALE encoding reads back, whatever follows it. *)
Theorem compact_reads_back : forall v b rest, v < 2 ^ 64 -> scale_compact v b -> scale_read (b ++ rest) = Some (v, rest).
Proof.
  intros v b rest V. unfold scale_compact. intros [[A ->]|[[A ->]|[[A ->]|[A (k & K & R & ->)]]]].
  - cbn [app scale_read]. cbv zeta. replace ((4 * v) mod 4) with 0 by (rewrite Z.mul_comm, Z_mod_mult; reflexivity). change (0 =? 0) with true. cbv iota. rewrite Z.mul_comm, Z_div_mult by lia. reflexivity.
  - rewrite (scale_read_mode 2).
    + rewrite le_num_of_small by (change (256 ^ Z.of_nat 2) with 65536; lia). f_equal. f_equal. Z.div_mod_to_equations; lia.
    + apply le_bytes_length.
    + left. split; [|reflexivity]. cbn [le_bytes hd]. Z.div_mod_to_equations; lia.
  - rewrite (scale_read_mode 4).
    + rewrite le_num_of_small by (change (256 ^ Z.of_nat 4) with (2 ^ 32); lia). f_equal. f_equal. Z.div_mod_to_equations; lia.
    + apply le_bytes_length.
    + right. split; [|reflexivity]. cbn [le_bytes hd]. Z.div_mod_to_equations; lia.
  - cbn [app scale_read]. cbv zeta. set (p := 4 * (Z.of_nat k - 4) + 3). assert (P4 : p mod 4 = 3) by (unfold p; Z.div_mod_to_equations; lia). assert (Q : p / 4 = Z.of_nat k - 4) by (unfold p; Z.div_mod_to_equations; lia). rewrite P4.
    change (3 =? 0) with false. change (3 =? 1) with false. change (3 =? 2) with false. cbv iota. rewrite Q. replace (Z.to_nat (Z.of_nat k - 4) + 4)%nat with k by lia.
    assert (L : length (le_bytes k v) = k) by apply le_bytes_length. cbn [length]. rewrite app_length, L. replace (S (k + length rest) <? S k)%nat with false by lia. cbn [firstn skipn].
    rewrite firstn_app, skipn_app, L, Nat.sub_diag, firstn_all2, skipn_all2 by lia. cbn [firstn skipn app]. rewrite app_nil_r. cbn [le_num]. rewrite le_num_of_small by lia. f_equal. f_equal. rewrite Z.add_comm, Z.mul_comm, Z.div_add_l by lia. rewrite (Z.div_small p) by (unfold p; assert (Z.of_nat k - 1 < 8) by (apply pow256_lt; [lia|]; change (256 ^ 8) with (2 ^ 64); lia); lia). lia.
Qed.

(** ** C39: eras *)
Theorem era_period_and_phase : forall h, 0 <= h -> exists b0 b1, get_era h = [b0; b1] /\ is_bytes [b0; b1] /\ era_read b0 b1 = Some (64, h mod 64).
Proof.
  intros h Hh. assert (B : 0 <= h mod 64 < 64) by (apply Z.mod_pos_bound; lia). unfold get_era. cbv zeta. set (p := h mod 64) in *. clearbody p.
  eexists _, _. split; [reflexivity|].
  pose proof (range_sweep (fun p => let e := u64 (5 + u64 (Z.shiftl (p / 1) 4)) in let b0 := u8 (Z.land e 255) in let b1 := u8 (Z.shiftr e 8) in is_byteb b0 && is_byteb b1 && match era_read b0 b1 with Some (a, b) => (a =? 64) && (b =? p) | None => false end) 64 ltac:(vm_compute; reflexivity) p ltac:(lia)) as F.
  cbv beta zeta in F. apply andb_prop in F as [F1 F]. apply andb_prop in F1 as [F1 F2]. unfold is_byteb in F1, F2. split.
  - repeat constructor; unfold is_byte; lia.
  - destruct (era_read _ _) as [[a b]|]; [|discriminate]. f_equal. f_equal; lia.
Qed.

(** ** C74: message and signed transaction *)
Definition tx_typed (t : tx) : Prop := 0 <= amount t < 2 ^ 64 /\ 0 <= nonce t < 2 ^ 64 /\ 0 <= fee t < 2 ^ 64 /\ 0 <= height t < 2 ^ 64 /\ 0 <= spec_version t < 2 ^ 32 /\ 0 <= tx_version t < 2 ^ 32.
Definition exact_values (t : tx) : Prop := amount t <= 2 ^ 64 - 2 ^ 56 /\ nonce t <= 2 ^ 64 - 2 ^ 56 /\ fee t <= 2 ^ 64 - 2 ^ 56.
(** A transfer call: call index, destination, compact amount. *)
Definition transfer_call (code : list Z) (t : tx) (call : bytes) : Prop :=
  exists dest a, hex_decode (recipient t) = Ok dest /\ zlen dest = 32 /\ amount t <> 0 /\ scale_compact (amount t) a /\ call = hex_prefix code ++ dest ++ a.
(** What the extrinsic carries besides the call: era, compact nonce, compact tip. *)
Definition extra (t : tx) (e : bytes) : Prop :=
  exists n f, scale_compact (nonce t) n /\ scale_compact (fee t) f /\ e = get_era (height t) ++ n ++ f.
(** The message to sign: call, extra, spec version, transaction version, genesis hash, block hash. *)
Definition signing_payload (code : list Z) (t : tx) (m : bytes) : Prop :=
  exists call e g b, transfer_call code t call /\ extra t e /\ height t <> 0 /\ hex_decode (genesis_hash t) = Ok g /\ zlen g = 32 /\ hex_decode (block_hash t) = Ok b /\ zlen b = 32 /\
    m = call ++ e ++ le_bytes 4 (spec_version t) ++ le_bytes 4 (tx_version t) ++ g ++ b.
(** The signed extrinsic: length, version 4 with the signed bit, account, ed25519 signature, extra, call. *)
Definition signed_extrinsic (code : list Z) (t : tx) (sig out : bytes) : Prop :=
  exists call e from l body, transfer_call code t call /\ extra t e /\ hex_decode (sender t) = Ok from /\ zlen from = 32 /\
    body = [0x84; 0x00] ++ from ++ [0x00] ++ sig ++ e ++ call /\ scale_compact (zlen body) l /\ out = l ++ body.

Lemma encode_scale v : 0 < v <= 2 ^ 64 - 2 ^ 56 -> exists b, encode v = Ok (hex_encode b) /\ is_bytes b /\ scale_compact v b.
Proof. intros B. destruct (compact_encoding_exact v ltac:(lia)) as (b & E & Hb & C). exists b. split; [exact E|]. split; [exact Hb|]. apply C. lia. Qed.
Lemma compact_or_zero_scale v b : 0 <= v <= 2 ^ 64 - 2 ^ 56 -> compact_or_zero v = Ok b <-> scale_compact v b.
Proof.
  intros B. unfold compact_or_zero. destruct (v =? 0) eqn:E.
  - assert (v = 0) by lia. subst v. assert (C : scale_compact 0 [0]) by (left; split; [lia|reflexivity]). split; [intros [= <-]; exact C|]. intros C'. rewrite (scale_unique _ _ _ C C'). reflexivity.
  - destruct (encode_scale v ltac:(lia)) as (s & Es & Hs & C). rewrite Es. cbn [bind]. rewrite hex_prefix_encode by exact Hs. split; [intros [= <-]; exact C|]. intros C'. rewrite (scale_unique _ _ _ C C'). reflexivity.
Qed.
Lemma method_bytes_iff code t call : tx_typed t -> exact_values t -> method_bytes code t = Ok call <-> transfer_call code t call.
Proof.
  intros (T1 & _) (X1 & _). unfold method_bytes, transfer_call. split.
  - intros E. apply bind_ok in E as (pub & Ep & E). destruct (zlen pub =? 32) eqn:L; [|discriminate]. cbn [negb] in E. destruct (amount t =? 0) eqn:A; [discriminate|].
    destruct (encode_scale (amount t) ltac:(lia)) as (s & Es & Hs & C). rewrite Es in E. cbn [bind] in E. rewrite hex_prefix_encode in E by exact Hs.
    destruct (zlen s =? 0) eqn:L0; [discriminate|]. injection E as <-. exists pub, s. repeat (split; [assumption || lia|]). reflexivity.
  - intros (dest & a & Ed & Ld & A & C & ->). rewrite Ed. cbn [bind]. rewrite Ld. change (negb (32 =? 32)) with false. replace (amount t =? 0) with false by lia. cbv iota.
    destruct (encode_scale (amount t) ltac:(lia)) as (s & Es & Hs & C'). assert (a = s) by (eapply scale_unique; eassumption). subst a. rewrite Es. cbn [bind]. rewrite hex_prefix_encode by exact Hs.
    destruct (scale_bytes _ _ (proj2 T1) C) as (_ & _ & N). replace (zlen s =? 0) with false; [reflexivity|]. destruct s; [congruence|]. rewrite zlen_cons. pose proof (zlen_nonneg s). lia.
Qed.
Theorem message_iff : forall code t text, tx_typed t -> exact_values t ->
  message code t = Ok text <-> exists m, signing_payload code t m /\ text = hex_encode m.
Proof.
  intros code t text T X. pose proof T as (T1 & T2 & T3 & _). pose proof X as (X1 & X2 & X3). unfold message, signing_payload, extra. split.
  - intros E. apply bind_ok in E as (call & Ec & E). apply method_bytes_iff in Ec; try assumption. destruct (height t =? 0) eqn:Hh; [discriminate|].
    apply bind_ok in E as (n & En & E). apply (proj1 (compact_or_zero_scale (nonce t) n ltac:(lia))) in En. apply bind_ok in E as (f & Ef & E). apply (proj1 (compact_or_zero_scale (fee t) f ltac:(lia))) in Ef.
    apply bind_ok in E as (g & Eg & E). destruct (zlen g =? 32) eqn:Lg; [|discriminate]. cbn [negb] in E. apply bind_ok in E as (b & Eb & E). destruct (zlen b =? 32) eqn:Lb; [|discriminate]. cbn [negb] in E.
    apply (f_equal (fun x => match x with Ok v => v | _ => [] end)) in E. cbv beta iota in E. eexists. split; [|rewrite <- E; reflexivity].
    exists call, (get_era (height t) ++ n ++ f), g, b. split; [exact Ec|]. split; [exists n, f; auto|]. repeat (split; [assumption || lia|]). rewrite <- !app_assoc. reflexivity.
  - intros (m & (call & e & g & b & Ec & (n & f & En & Ef & ->) & Hh & Eg & Lg & Eb & Lb & ->) & ->). rewrite (proj2 (method_bytes_iff code t call T X) Ec). cbn [bind]. replace (height t =? 0) with false by lia.
    rewrite (proj2 (compact_or_zero_scale (nonce t) n ltac:(lia)) En), (proj2 (compact_or_zero_scale (fee t) f ltac:(lia)) Ef), Eg. cbn [bind]. rewrite Lg. change (negb (32 =? 32)) with false. cbv iota. rewrite Eb. cbn [bind]. rewrite Lb. change (negb (32 =? 32)) with false. cbv iota.
    rewrite <- !app_assoc. reflexivity.
Qed.

Lemma scale_code v w a b (x y : bytes) : v < 2 ^ 64 -> w < 2 ^ 64 -> scale_compact v a -> scale_compact w b -> a ++ x = b ++ y -> v = w /\ x = y.
Proof. intros V W A B E. apply (f_equal scale_read) in E. rewrite (compact_reads_back v a x V A), (compact_reads_back w b y W B) in E. injection E as -> ->. auto. Qed.
Lemma scale_is_bytes v a : v < 2 ^ 64 -> scale_compact v a -> is_bytes a.
Proof. intros V C. apply (scale_bytes v a V C). Qed.
Lemma era_len h : 0 <= h -> zlen (get_era h) = 2.
Proof. intros Hh. destruct (era_period_and_phase h Hh) as (b0 & b1 & -> & _). reflexivity. Qed.
Lemma era_phase h h' : 0 <= h -> 0 <= h' -> get_era h = get_era h' -> h mod 64 = h' mod 64.
Proof.
  intros A B E. destruct (era_period_and_phase h A) as (b0 & b1 & Ea & _ & Ra). destruct (era_period_and_phase h' B) as (c0 & c1 & Eb & _ & Rb). rewrite Ea, Eb in E. injection E as -> ->. congruence.
Qed.
(** The message determines destination, amount, era phase, nonce, tip, versions, genesis hash and block hash. *)
Theorem message_determines_transfer : forall code t u m, tx_typed t -> tx_typed u -> exact_values t -> exact_values u ->
  message code t = Ok m -> message code u = Ok m ->
  hex_decode (recipient t) = hex_decode (recipient u) /\ amount t = amount u /\ height t mod 64 = height u mod 64 /\ nonce t = nonce u /\ fee t = fee u /\
  spec_version t = spec_version u /\ tx_version t = tx_version u /\ hex_decode (genesis_hash t) = hex_decode (genesis_hash u) /\ hex_decode (block_hash t) = hex_decode (block_hash u).
Proof.
  intros code t u m T U X Y Et Eu. pose proof T as (T1 & T2 & T3 & T4 & T5 & T6). pose proof U as (U1 & U2 & U3 & U4 & U5 & U6).
  apply (proj1 (message_iff _ _ _ T X)) in Et as (p & (call & e & g & b & (d & a & Ed & Ld & _ & A & ->) & (n & f & N & F & ->) & _ & Eg & Lg & Eb & Lb & Hp) & Em).
  apply (proj1 (message_iff _ _ _ U Y)) in Eu as (p' & (call' & e' & g' & b' & (d' & a' & Ed' & Ld' & _ & A' & ->) & (n' & f' & N' & F' & ->) & _ & Eg' & Lg' & Eb' & Lb' & Hp') & Em').
  rewrite Em in Em'. 
  assert (BY : forall s v, hex_decode s = Ok v -> is_bytes v) by (intros s v; apply hex_decode_bytes).
  assert (HP : is_bytes (hex_prefix code)).
  { clear. induction code as [| |x y s IH] using pair_ind; cbn [hex_prefix]; try constructor. destruct (hex_val x) eqn:Ex; [|constructor]. destruct (hex_val y) eqn:Ey; [|constructor]. apply is_bytes_cons. split; [|exact IH].
    apply hex_val_range in Ex. apply hex_val_range in Ey. unfold is_byte. lia. }
  assert (ER : forall h, 0 <= h -> is_bytes (get_era h)) by (intros h Hh; destruct (era_period_and_phase h Hh) as (b0 & b1 & -> & B & _); exact B).
  apply hex_encode_inj in Em'.
  - subst p p'. rewrite <- !app_assoc in Em'. apply app_split in Em' as [_ E]; [|reflexivity]. apply app_split in E as [-> E]; [|congruence].
    apply (scale_code (amount t) (amount u)) in E as [-> E]; try assumption; try lia. apply app_split in E as [Er E]; [|rewrite !era_len by lia; reflexivity]. apply era_phase in Er; [|lia|lia].
    apply (scale_code (nonce t) (nonce u)) in E as [-> E]; try assumption; try lia. apply (scale_code (fee t) (fee u)) in E as [-> E]; try assumption; try lia.
    apply (le_code 4) in E as [-> E]; [|change (256 ^ Z.of_nat 4) with (2 ^ 32); assumption..]. apply (le_code 4) in E as [-> E]; [|change (256 ^ Z.of_nat 4) with (2 ^ 32); assumption..].
    apply app_split in E as [-> ->]; [|congruence]. rewrite Ed, Ed', Eg, Eg', Eb, Eb'. repeat (split; [reflexivity || assumption|]). reflexivity.
  - subst p. rewrite !is_bytes_app. repeat match goal with |- _ /\ _ => split end; try apply le_bytes_is_bytes; try (apply ER; lia); try assumption; try (eapply BY; eassumption); (eapply scale_is_bytes; [|eassumption]; lia).
  - subst p'. rewrite !is_bytes_app. repeat match goal with |- _ /\ _ => split end; try apply le_bytes_is_bytes; try (apply ER; lia); try assumption; try (eapply BY; eassumption); (eapply scale_is_bytes; [|eassumption]; lia).
Qed.

Lemma hex_prefix_len (s : list Z) : 2 * zlen (hex_prefix s) <= zlen s.
Proof.
  induction s as [| |x y s IH] using pair_ind; cbn [hex_prefix]; [cbn; lia|cbn; lia|]. rewrite !zlen_cons. pose proof (zlen_nonneg s).
  destruct (hex_val x); [|change (zlen (@nil Z)) with 0; lia]. destruct (hex_val y); [|change (zlen (@nil Z)) with 0; lia]. rewrite zlen_cons. lia.
Qed.
Lemma call_len code t call : tx_typed t -> transfer_call code t call -> 32 <= zlen call /\ 2 * zlen call <= zlen code + 82.
Proof.
  intros (T1 & _) (d & a & _ & Ld & _ & A & ->). destruct (scale_bytes _ _ (proj2 T1) A) as (_ & La & _). rewrite !zlen_app, Ld. pose proof (zlen_nonneg a). pose proof (zlen_nonneg (hex_prefix code)). pose proof (hex_prefix_len code). lia.
Qed.
Lemma extra_len t e : tx_typed t -> extra t e -> 2 <= zlen e <= 20.
Proof.
  intros (_ & T2 & T3 & T4 & _) (n & f & N & F & ->). destruct (scale_bytes _ _ (proj2 T2) N) as (_ & Ln & _). destruct (scale_bytes _ _ (proj2 T3) F) as (_ & Lf & _).
  rewrite !zlen_app, era_len by lia. pose proof (zlen_nonneg n). pose proof (zlen_nonneg f). lia.
Qed.
(** With a call index of at most 60 bytes the message has at most 256 bytes, so the rule that longer messages are hashed before signing does not apply. *)
Theorem message_is_never_hashed : forall code t text, tx_typed t -> exact_values t -> zlen code <= 120 -> message code t = Ok text ->
  exists m, signing_payload code t m /\ text = hex_encode m /\ zlen m <= 256.
Proof.
  intros code t text T X L E. apply (proj1 (message_iff _ _ _ T X)) in E as (m & P & ->). exists m. split; [exact P|]. split; [reflexivity|].
  destruct P as (call & e & g & b & C & X' & _ & _ & Lg & _ & Lb & ->). apply call_len in C; [|exact T]. apply extra_len in X'; [|exact T]. rewrite !zlen_app, !zlen_le_bytes, Lg, Lb. lia.
Qed.

Lemma signed_tx_iff code t signature sig s : tx_typed t -> exact_values t -> height t <> 0 -> zlen code < 2 ^ 32 -> (exists f, hex_decode (sender t) = Ok f /\ zlen f = 32) ->
  hex_decode signature = Ok sig -> zlen sig = 64 -> signed_tx code t signature = Ok s <-> exists out, signed_extrinsic code t sig out /\ s = 48 :: 120 :: hex_encode out.
Proof.
  intros T X Hh Lc (from & Ef & Lf) Es Ls. pose proof T as (T1 & T2 & T3 & T4 & _). pose proof X as (X1 & X2 & X3). unfold signed_tx. rewrite Ef, Es, Lf, Ls. change (negb (32 =? 32)) with false. change (negb (64 =? 64)) with false. replace (height t =? 0) with false by lia. cbv iota.
  assert (LEN : forall call e, transfer_call code t call -> extra t e -> 0 < zlen ([132; 0] ++ from ++ [0] ++ sig ++ e ++ call) <= 2 ^ 64 - 2 ^ 56).
  { intros call e C E. apply call_len in C; [|exact T]. apply extra_len in E; [|exact T]. rewrite !zlen_app, Lf, Ls. change (zlen [132; 0]) with 2. change (zlen [0]) with 1. lia. }
  split.
  - intros E. apply bind_ok in E as (n & En & E). apply (proj1 (compact_or_zero_scale (nonce t) n ltac:(lia))) in En. apply bind_ok in E as (f & Ef' & E). apply (proj1 (compact_or_zero_scale (fee t) f ltac:(lia))) in Ef'.
    apply bind_ok in E as (call & Ec & E). apply method_bytes_iff in Ec; try assumption.
    assert (EX : extra t (get_era (height t) ++ n ++ f)) by (exists n, f; auto). pose proof (LEN _ _ Ec EX) as B. rewrite <- !app_assoc in B.
    destruct (encode_scale _ B) as (l & El & Hl & C). rewrite El in E. cbn [bind] in E. rewrite hex_prefix_encode in E by exact Hl. rewrite <- hex_encode_app in E.
    apply (f_equal (fun x => match x with Ok v => v | _ => [] end)) in E. cbv beta iota in E. eexists. split; [|rewrite <- E; reflexivity].
    exists call, (get_era (height t) ++ n ++ f), from, l. eexists. split; [exact Ec|]. split; [exact EX|]. split; [exact Ef|]. split; [exact Lf|]. split; [rewrite <- !app_assoc; reflexivity|]. split; [exact C|reflexivity].
  - intros (out & (call & e & from' & l & body & Ec & EX & Ef' & _ & -> & C & ->) & ->). rewrite Ef in Ef'. injection Ef' as <-. pose proof (LEN _ _ Ec EX) as B. destruct EX as (n & f & N & F & ->).
    rewrite (proj2 (compact_or_zero_scale (nonce t) n ltac:(lia)) N), (proj2 (compact_or_zero_scale (fee t) f ltac:(lia)) F), (proj2 (method_bytes_iff code t call T X) Ec). cbn [bind]. rewrite <- !app_assoc in *.
    destruct (encode_scale _ B) as (l' & El & Hl & C'). assert (l = l') by (eapply scale_unique; eassumption). subst l'. rewrite El. cbn [bind]. rewrite hex_prefix_encode by exact Hl. rewrite <- hex_encode_app. reflexivity.
Qed.
Lemma signing_height code t m : signing_payload code t m -> height t <> 0.
Proof. intros (call & e & g & b & _ & _ & H & _). exact H. Qed.
Lemma signing_bytes code t m : tx_typed t -> signing_payload code t m -> is_bytes m.
Proof.
  intros (T1 & T2 & T3 & T4 & _) (call & e & g & b & (d & a & Ed & _ & _ & A & ->) & (n & f & N & F & ->) & _ & Eg & _ & Eb & _ & ->).
  assert (BY : forall s v, hex_decode s = Ok v -> is_bytes v) by (intros s v; apply hex_decode_bytes).
  assert (HP : is_bytes (hex_prefix code)).
  { clear. induction code as [| |x y s IH] using pair_ind; cbn [hex_prefix]; try constructor. destruct (hex_val x) eqn:Ex; [|constructor]. destruct (hex_val y) eqn:Ey; [|constructor]. apply is_bytes_cons. split; [|exact IH].
    apply hex_val_range in Ex. apply hex_val_range in Ey. unfold is_byte. lia. }
  assert (ER : is_bytes (get_era (height t))) by (destruct (era_period_and_phase (height t) (proj1 T4)) as (b0 & b1 & -> & B & _); exact B).
  rewrite !is_bytes_app. repeat match goal with |- _ /\ _ => split end; try apply le_bytes_is_bytes; try assumption; try (eapply BY; eassumption); (eapply scale_is_bytes; [|eassumption]; lia).
Qed.
(** A transaction is combined exactly when the 64-byte signature verifies over the signing payload, and it is the signed extrinsic. *)
Theorem combined_transaction_iff : forall verify code t signature s from, tx_typed t -> exact_values t -> zlen code < 2 ^ 32 -> hex_decode (sender t) = Ok from -> zlen from = 32 ->
  verify_and_combine verify code t signature = Ok (s, true) <->
  exists m sig out, signing_payload code t m /\ hex_decode signature = Ok sig /\ zlen sig = 64 /\ verify from m sig = true /\ signed_extrinsic code t sig out /\ s = 48 :: 120 :: hex_encode out.
Proof.
  intros verify code t signature s from T X Lc Ef Lf. unfold verify_and_combine. rewrite (hex_prefix_decode _ _ Ef). split.
  - intros E. destruct (message code t) as [m| |] eqn:Em; try discriminate. apply (proj1 (message_iff _ _ _ T X)) in Em as (p & P & ->). destruct (hex_decode signature) as [sig| |] eqn:Es; try discriminate.
    destruct (zlen sig =? 64) eqn:Ls; [|discriminate]. cbn [negb] in E. rewrite hex_prefix_encode in E by (eapply signing_bytes; eassumption). destruct (verify from p sig) eqn:V; [|discriminate]. cbn [negb] in E.
    destruct (signed_tx code t signature) as [w| |] eqn:Ew; try discriminate. injection E as <-.
    apply (proj1 (signed_tx_iff _ _ _ sig w T X (signing_height _ _ _ P) Lc ltac:(exists from; auto) Es ltac:(lia))) in Ew as (out & O & ->).
    exists p, sig, out. repeat (split; [assumption || reflexivity || lia|]). reflexivity.
  - intros (m & sig & out & P & Es & Ls & V & O & ->). rewrite (proj2 (message_iff code t (hex_encode m) T X)) by (exists m; auto). rewrite Es, Ls. change (negb (64 =? 64)) with false. cbv iota.
    rewrite hex_prefix_encode by (eapply signing_bytes; eassumption). rewrite V. cbn [negb].
    rewrite (proj2 (signed_tx_iff _ _ _ sig _ T X (signing_height _ _ _ P) Lc ltac:(exists from; auto) Es Ls)) by (exists out; split; [exact O|reflexivity]). reflexivity.
Qed.
(** A sender that is not 32 bytes of hex text can still give the result "true" with an empty transaction. *)
Theorem bad_sender_gives_empty_transaction : forall verify code t signature sig m, message code t = Ok m -> hex_decode signature = Ok sig -> zlen sig = 64 ->
  verify (hex_prefix (sender t)) (hex_prefix m) sig = true -> (forall from, hex_decode (sender t) = Ok from -> zlen from <> 32) -> verify_and_combine verify code t signature = Ok ([], true).
Proof.
  intros verify code t signature sig m Em Es Ls V B. unfold verify_and_combine, signed_tx. rewrite Em, Es, Ls. change (negb (64 =? 64)) with false. cbv iota. rewrite V. cbn [negb].
  destruct (hex_decode (sender t)) as [from| |] eqn:E; try reflexivity. specialize (B _ eq_refl). replace (zlen from =? 32) with false by lia. reflexivity.
Qed.

(** ** Examples *)
Example ex_compact_small : encode 16383 = Ok (hex_encode [253; 255]). Proof. vm_compute. reflexivity. Qed.
Example ex_compact_large : encode (2 ^ 40) = Ok (hex_encode [11; 0; 0; 0; 0; 0; 1]) /\ scale_compact (2 ^ 40) [11; 0; 0; 0; 0; 0; 1].
Proof. split; [vm_compute; reflexivity|]. right. right. right. split; [lia|]. exists 6%nat. split; [lia|]. split; [vm_compute; split; congruence|reflexivity]. Qed.
(** 2^64 - 2^40 is written with the prefix of a 6-byte integer: read back it is another number. *)
Example ex_compact_wrong : encode (2 ^ 64 - 2 ^ 40) = Ok (hex_encode (11 :: le_bytes 8 (2 ^ 64 - 2 ^ 40))) /\ scale_read (11 :: le_bytes 8 (2 ^ 64 - 2 ^ 40)) = Some (2 ^ 48 - 2 ^ 40, [255; 255]).
Proof. split; vm_compute; reflexivity. Qed.
Example ex_era : get_era 1000 = [133; 2]. Proof. reflexivity. Qed.
Definition ex_tx : tx := {| sender := hex_encode (repeat 1 32); recipient := hex_encode (repeat 2 32); amount := 10 ^ 12; nonce := 0; fee := 7; height := 1000; block_hash := hex_encode (repeat 3 32); genesis_hash := hex_encode (repeat 4 32); spec_version := 26; tx_version := 5 |}.
Definition ex_code : list Z := hex_encode [5; 0].
Example ex_tx_ok : tx_typed ex_tx /\ exact_values ex_tx. Proof. unfold tx_typed, exact_values. cbn [amount nonce fee height spec_version tx_version ex_tx]. lia. Qed.
Example ex_combined : exists s, verify_and_combine (fun p m s => (zlen p =? 32) && (zlen m =? 116) && (zlen s =? 64)) ex_code ex_tx (hex_encode (repeat 9 64)) = Ok (s, true) /\ s <> [].
Proof. eexists. split; [vm_compute; reflexivity|]. discriminate. Qed.
Print Assumptions compact_encoding_exact.
Print Assumptions compact_reads_back.
Print Assumptions era_period_and_phase.
Print Assumptions message_determines_transfer.
Print Assumptions message_is_never_hashed.
Print Assumptions combined_transaction_iff.
Print Assumptions bad_sender_gives_empty_transaction.
