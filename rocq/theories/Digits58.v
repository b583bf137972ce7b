(** Fixed-width base-58 numerals and the leading characters of a base58 text. *)
From Coq Require Import ZArith List Bool Lia ZifyBool ZifyNat.
From Verif Require Import Go GoFacts Base58Model Base58Spec Base58Proofs Base58Props AddressProofs.
Import ListNotations.
Open Scope Z_scope.
Ltac Zify.zify_post_hook ::= idtac.

(** The [k] base-58 digits of [n], most significant first, with leading zeros. *)
Fixpoint digits58 (k : nat) (n : Z) : list Z :=
  match k with O => [] | S k' => digits58 k' (n / 58) ++ [n mod 58] end.

Lemma digits58_length k : forall n, length (digits58 k n) = k.
Proof. induction k; intros n; cbn [digits58]; [reflexivity|]. rewrite app_length, IHk. cbn; lia. Qed.
Lemma digits58_range k : forall n, Forall (fun d => 0 <= d < 58) (digits58 k n).
Proof.
  induction k; intros n; cbn [digits58]; [constructor|]. apply Forall_app; split; [apply IHk|].
  constructor; [apply Z.mod_pos_bound; lia|constructor].
Qed.
Lemma digits58_bval k : forall n, 0 <= n < 58 ^ Z.of_nat k -> bval 58 (digits58 k n) = n.
Proof.
  induction k; intros n Hn; cbn [digits58].
  - change (58 ^ Z.of_nat 0) with 1 in Hn. unfold bval; cbn. lia.
  - rewrite bval_snoc, IHk.
    + rewrite Z.mul_comm. pose proof (Z.div_mod n 58 ltac:(lia)). lia.
    + rewrite Nat2Z.inj_succ, Z.pow_succ_r in Hn by lia. split; [apply Z.div_pos; lia|].
      apply Z.div_lt_upper_bound; lia.
Qed.
Lemma bval_digits58 ds : digits 58 ds -> ds = digits58 (length ds) (bval 58 ds).
Proof.
  induction ds as [|d ds IH] using rev_ind; intros D; [reflexivity|].
  apply Forall_app in D as [D1 D2]. inversion D2; subst. rewrite app_length, Nat.add_1_r. cbn [digits58 length].
  rewrite bval_snoc. f_equal.
  - replace ((58 * bval 58 ds + d) / 58) with (bval 58 ds); [apply IH, D1|].
    rewrite Z.mul_comm, Z.div_add_l by lia. rewrite (Z.div_small d) by lia. lia.
  - rewrite Z.add_comm, Z.mul_comm, Z_mod_plus_full, Z.mod_small by lia. reflexivity.
Qed.
Lemma digits58_app a b : forall n, 0 <= n -> digits58 (a + b) n = digits58 a (n / 58 ^ Z.of_nat b) ++ digits58 b n.
Proof.
  induction b as [|b IH]; intros n Hn.
  - rewrite Nat.add_0_r, app_nil_r. change (58 ^ Z.of_nat 0) with 1. rewrite Z.div_1_r. reflexivity.
  - rewrite Nat.add_succ_r. cbn [digits58]. rewrite IH by (apply Z.div_pos; lia). rewrite <- app_assoc. f_equal. f_equal.
    rewrite Z.div_div by (try apply Z.pow_pos_nonneg; lia). f_equal. rewrite Nat2Z.inj_succ, Z.pow_succ_r by lia. reflexivity.
Qed.
Lemma bval_hd_lower ds : digits 58 ds -> hd 1 ds <> 0 -> ds <> [] -> 58 ^ (zlen ds - 1) <= bval 58 ds.
Proof.
  destruct ds as [|d ds]; intros D Hd N; [contradiction|]. clear N. cbn [hd] in Hd. inversion D; subst.
  assert (E : bval 58 (d :: ds) = d * 58 ^ zlen ds + bval 58 ds).
  { unfold bval. cbn [rev]. rewrite lval_app, zlen_rev. cbn [lval]. ring. }
  rewrite E, zlen_cons. replace (1 + zlen ds - 1) with (zlen ds) by lia.
  pose proof (bval_bound 58 ds ltac:(lia) H2). pose proof (zlen_nonneg ds).
  assert (0 < 58 ^ zlen ds) by (apply Z.pow_pos_nonneg; lia). nia.
Qed.
(** digits of a number without leading zero, of known size *)
Lemma digits_exact k ds N : digits 58 ds -> hd 1 ds <> 0 -> bval 58 ds = N -> 0 < Z.of_nat k ->
  58 ^ (Z.of_nat k - 1) <= N < 58 ^ Z.of_nat k -> ds = digits58 k N.
Proof.
  intros D Hd V Hk HN. assert (L : length ds = k).
  { destruct ds as [|d ds]; [unfold bval in V; cbn in V; assert (0 < 58 ^ (Z.of_nat k - 1)) by (apply Z.pow_pos_nonneg; lia); lia|].
    pose proof (bval_hd_lower (d :: ds) D Hd ltac:(discriminate)) as B1. pose proof (bval_bound 58 _ ltac:(lia) D) as B2.
    rewrite V in *. set (m := d :: ds) in *. 
    assert (zlen m <= Z.of_nat k).
    { destruct (Z_le_gt_dec (zlen m) (Z.of_nat k)); [assumption|]. exfalso.
      assert (58 ^ Z.of_nat k <= 58 ^ (zlen m - 1)) by (apply Z.pow_le_mono_r; lia). lia. }
    assert (Z.of_nat k <= zlen m).
    { destruct (Z_le_gt_dec (Z.of_nat k) (zlen m)); [assumption|]. exfalso.
      assert (58 ^ zlen m <= 58 ^ (Z.of_nat k - 1)) by (apply Z.pow_le_mono_r; [lia|]; lia). lia. }
    unfold zlen in *. lia. }
  subst k N. apply bval_digits58, D.
Qed.
(** The first [L] characters of the text of a byte string whose number lies in a given range. *)
Lemma base58_lead rs b s k L lo hi : is_base58_of rs b s -> is_bytes b -> hd 1 b <> 0 ->
  (L <= k)%nat -> 0 < Z.of_nat k -> 58 ^ (Z.of_nat k - 1) <= lo -> hi < 58 ^ Z.of_nat k -> lo <= be_num b <= hi ->
  exists q r, lo / 58 ^ Z.of_nat (k - L) <= q <= hi / 58 ^ Z.of_nat (k - L) /\ s = map (symbol rs) (digits58 L q) ++ r.
Proof.
  intros (n & rest & ds & -> & Hr & D & Hd & P & ->) Hb Hh HL Hk Hlo Hhi HN.
  assert (n = O). { destruct n; [reflexivity|]. cbn in Hh. contradiction. } subst n. cbn [repeat app] in *.
  rewrite !positional_bval, bval_256 in P.
  pose proof (digits_exact k ds (be_num rest) D Hd P Hk ltac:(lia)) as E.
  assert (0 < 58 ^ (Z.of_nat k - 1)) by (apply Z.pow_pos_nonneg; lia).
  replace k with (L + (k - L))%nat in E by lia. rewrite digits58_app in E by lia.
  exists (be_num rest / 58 ^ Z.of_nat (k - L)), (map (symbol rs) (digits58 (k - L) (be_num rest))).
  split; [|rewrite E, map_app; reflexivity].
  assert (0 < 58 ^ Z.of_nat (k - L)) by (apply Z.pow_pos_nonneg; lia).
  split; apply Z.div_le_mono; lia.
Qed.
