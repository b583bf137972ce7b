(** C26, C27: signature normalisation. *)
From Coq Require Import ZArith List Bool Lia ZifyBool ZifyNat.
From Verif Require Import Go GoFacts GoFacts2 PadLoop OwkDeriveProofs SigModel.
Import ListNotations.
Open Scope Z_scope.
Ltac Zify.zify_post_hook ::= idtac.

(** ** Specification *)
(** The two curves in use: order and half order. *)
Definition curve_pair (order half : Z) : Prop :=
  (order = secp_order /\ half = secp_half) \/ (order = p256_order /\ half = p256_half).
(** Number of bytes of a nonnegative integer. *)
Definition nbytes (x n : Z) : Prop := (x = 0 /\ n = 0) \/ (0 < n /\ 256 ^ (n - 1) <= x < 256 ^ n).

(** ** Lemmas *)
Lemma pair_facts order half : curve_pair order half -> half = order / 2 /\ 0 < half /\ order = 2 * half + 1 /\ order < 256 ^ 32 /\ 256 ^ 32 - order <= 256 ^ 28.
Proof. intros [[-> ->] | [-> ->]]; vm_compute; intuition discriminate. Qed.
Lemma serialize_eq order half (r s : bytes) : length r = 32%nat ->
  serialize_s order half (r ++ s) = Ok (if half <? be_num s then r ++ pad32_buggy (big_bytes (order - be_num s)) else r ++ s).
Proof.
  intros Lr. unfold serialize_s. rewrite slice_from_post by (unfold zlen; lia). cbn [bind].
  destruct (half <? be_num s); [|reflexivity]. rewrite slice_pre by (unfold zlen; lia). reflexivity.
Qed.
Lemma big_nbytes x : 0 <= x -> nbytes x (zlen (big_bytes x)).
Proof.
  intros H. destruct (Z.eq_dec x 0) as [-> | N]; [left; split; reflexivity|]. right.
  pose proof (be_num_bound _ (big_bytes_bytes x)) as B. rewrite big_bytes_num, Z.abs_eq in B by lia.
  assert (L : 0 < zlen (big_bytes x)).
  { destruct (Z.eq_dec (zlen (big_bytes x)) 0) as [E|E]; [rewrite E in B; lia|pose proof (zlen_nonneg (big_bytes x)); lia]. }
  split; [exact L|]. split; [|lia]. destruct (Z_lt_ge_dec x (256 ^ (zlen (big_bytes x) - 1))) as [Q|Q]; [|lia]. exfalso.
  pose proof (big_bytes_len x (length (big_bytes x) - 1)) as U. unfold zlen in *.
  replace (Z.of_nat (length (big_bytes x)) - 1) with (Z.of_nat (length (big_bytes x) - 1)) in Q by lia. specialize (U ltac:(lia)). lia.
Qed.
Lemma nbytes_fun x n m : nbytes x n -> nbytes x m -> n = m.
Proof.
  intros [[-> ->] | [N A]] [[E ->] | [M B]]; try lia.
  destruct (Z.lt_trichotomy n m) as [L|[L|L]]; [exfalso|exact L|exfalso].
    + assert (256 ^ n <= 256 ^ (m - 1)) by (apply Z.pow_le_mono_r; lia). lia.
    + assert (256 ^ m <= 256 ^ (n - 1)) by (apply Z.pow_le_mono_r; lia). lia.
Qed.
Lemma be32 (s : bytes) : is_bytes s -> length s = 32%nat -> 0 <= be_num s < 256 ^ 32.
Proof. intros B L. pose proof (be_num_bound s B) as Q. unfold zlen in Q. rewrite L in Q. exact Q. Qed.
Lemma half_big : 256 ^ 28 <= secp_half /\ 256 ^ 28 <= p256_half.
Proof. vm_compute. intuition discriminate. Qed.
Lemma dist_small order half s : curve_pair order half -> 0 <= s < 256 ^ 32 -> half < s -> 0 <= Z.abs (order - s) <= half.
Proof.
  intros P S Hs. pose proof (pair_facts order half P) as (_ & _ & F2 & F3 & F4). pose proof half_big as [A B].
  assert (256 ^ 28 <= half) by (destruct P as [[_ ->] | [_ ->]]; assumption). lia.
Qed.

(** ** C26 *)
(** For every 64-byte signature r||s the result is r||s' with s' at most half the group order and s' = s or s' = -s
    modulo the order; for s below the order it is the smaller of the two. *)
Theorem normalised_low_s : forall order half r s, curve_pair order half -> length r = 32%nat -> is_bytes s -> length s = 32%nat ->
  exists s', serialize_s order half (r ++ s) = Ok (r ++ s') /\ is_bytes s' /\
    0 <= be_num s' /\ 2 * be_num s' < order /\
    (be_num s' mod order = be_num s mod order \/ be_num s' mod order = (- be_num s) mod order) /\
    (be_num s <= order -> be_num s' = Z.min (be_num s) (order - be_num s)).
Proof.
  intros order half r s P Lr Bs Ls. pose proof (pair_facts order half P) as (F0 & F1 & F2 & F3 & F4). pose proof (be32 s Bs Ls) as R.
  rewrite serialize_eq by exact Lr. destruct (half <? be_num s) eqn:C.
  - exists (pad32_buggy (big_bytes (order - be_num s))). pose proof (dist_small order half (be_num s) P R ltac:(lia)) as D.
    rewrite pad32_num, big_bytes_num. split; [reflexivity|]. split; [apply pad32_bytes, big_bytes_bytes|]. split; [lia|]. split; [lia|]. split.
    + destruct (Z.leb_spec (be_num s) order) as [L|L].
      * right. rewrite Z.abs_eq by lia. replace (order - be_num s) with (- be_num s + 1 * order) by lia. apply Z.mod_add. lia.
      * left. rewrite Z.abs_neq by lia. replace (- (order - be_num s)) with (be_num s + (-1) * order) by lia. apply Z.mod_add. lia.
    + intros L. rewrite Z.abs_eq by lia. lia.
  - exists s. split; [reflexivity|]. split; [exact Bs|]. split; [lia|]. split; [lia|]. split; [left; reflexivity|]. intros L. lia.
Qed.
(** Normalising again changes nothing. *)
Theorem normalise_idempotent : forall order half r s out, curve_pair order half -> length r = 32%nat -> is_bytes s -> length s = 32%nat ->
  serialize_s order half (r ++ s) = Ok out -> serialize_s order half out = Ok out.
Proof.
  intros order half r s out P Lr Bs Ls E. destruct (normalised_low_s order half r s P Lr Bs Ls) as (s' & E' & _ & L0 & L1 & _).
  rewrite E in E'. assert (out = r ++ s') by congruence. subst out. rewrite serialize_eq by exact Lr.
  pose proof (pair_facts order half P) as (F0 & F1 & F2 & F3 & F4). replace (half <? be_num s') with false by lia. reflexivity.
Qed.
(** A signature that already has a low s is returned unchanged; a signature of fewer than 32 bytes panics. *)
Theorem normalise_keeps_low_s : forall order half r s, curve_pair order half -> length r = 32%nat -> 2 * be_num s < order ->
  serialize_s order half (r ++ s) = Ok (r ++ s).
Proof.
  intros order half r s P Lr L. rewrite serialize_eq by exact Lr. pose proof (pair_facts order half P) as (F0 & F1 & F2 & F3 & F4).
  replace (half <? be_num s) with false by lia. reflexivity.
Qed.
Theorem normalise_panics_iff : forall order half sig, serialize_s order half sig = Panic <-> (length sig < 32)%nat.
Proof.
  intros order half sig. split.
  - intros E. destruct (Nat.lt_ge_cases (length sig) 32) as [|G]; [assumption|]. exfalso.
    rewrite <- (firstn_skipn 32 sig) in E. rewrite serialize_eq in E by (rewrite firstn_length; lia). discriminate.
  - intros L. unfold serialize_s, slice_from. replace (slice sig 32 (zlen sig)) with (@Panic bytes); [reflexivity|].
    symmetry. apply slice_panic. unfold zlen. lia.
Qed.

(** ** C27 *)
(** Length of the result: 64 bytes when s is already low; otherwise 32 bytes plus the n bytes of |order - s| plus only
    half (rounded up) of the missing 32-n zero bytes. *)
Theorem normalised_length : forall order half r s out n, curve_pair order half -> length r = 32%nat -> is_bytes s -> length s = 32%nat ->
  serialize_s order half (r ++ s) = Ok out -> nbytes (Z.abs (order - be_num s)) n ->
  zlen out = if 2 * be_num s <? order then 64 else 32 + n + (33 - n) / 2.
Proof.
  intros order half r s out n P Lr Bs Ls E N. pose proof (pair_facts order half P) as (F0 & F1 & F2 & F3 & F4).
  rewrite serialize_eq in E by exact Lr. replace (2 * be_num s <? order) with (negb (half <? be_num s)) by lia.
  destruct (half <? be_num s) eqn:C; cbn [negb].
  - assert (out = r ++ pad32_buggy (big_bytes (order - be_num s))) by congruence. subst out. rewrite pad32_buggy_eq, !zlen_app, zlen_zeros.
    assert (Q : zlen (big_bytes (order - be_num s)) = n).
    { apply (nbytes_fun (Z.abs (order - be_num s))); [|exact N]. replace (big_bytes (order - be_num s)) with (big_bytes (Z.abs (order - be_num s))); [apply big_nbytes; lia|].
      unfold big_bytes. rewrite Z.abs_involutive. reflexivity. }
    rewrite Q. assert (0 <= n <= 32).
    { rewrite <- Q. split; [apply zlen_nonneg|]. destruct N as [[_ ->] | [N1 N2]]; [lia|].
      pose proof (dist_small order half (be_num s) P (be32 s Bs Ls) ltac:(lia)) as D. rewrite Q.
      destruct (Z.leb_spec n 32); [assumption|]. exfalso. assert (256 ^ 32 <= 256 ^ (n - 1)) by (apply Z.pow_le_mono_r; lia). lia. }
    assert (0 <= (33 - n) / 2) by (apply Z.div_pos; lia). unfold zlen. lia.
  - assert (out = r ++ s) by congruence. subst out. rewrite zlen_app. unfold zlen. lia.
Qed.
(** The result has 64 bytes exactly when s is low or |order - s| needs at least 31 bytes. *)
Theorem normalised_length_64_iff : forall order half r s out, curve_pair order half -> length r = 32%nat -> is_bytes s -> length s = 32%nat ->
  serialize_s order half (r ++ s) = Ok out ->
  (length out = 64%nat <-> 2 * be_num s < order \/ 2 ^ 240 <= Z.abs (order - be_num s)) /\ (length out <= 64)%nat.
Proof.
  intros order half r s out P Lr Bs Ls E. pose proof (big_nbytes (Z.abs (order - be_num s)) ltac:(lia)) as N.
  pose proof (normalised_length order half r s out _ P Lr Bs Ls E N) as L. set (n := zlen (big_bytes (Z.abs (order - be_num s)))) in *. clearbody n.
  pose proof (pair_facts order half P) as (F0 & F1 & F2 & F3 & F4). unfold zlen in L.
  destruct (2 * be_num s <? order) eqn:C; [split; [split; [intros _; left; lia|intros _; lia]|lia]|].
  pose proof (dist_small order half (be_num s) P (be32 s Bs Ls) ltac:(lia)) as D.
  assert (U : 0 <= n <= 32).
  { destruct N as [[_ ->] | [N1 N2]]; [lia|]. destruct (Z.leb_spec n 32); [lia|]. exfalso. assert (256 ^ 32 <= 256 ^ (n - 1)) by (apply Z.pow_le_mono_r; lia). lia. }
  assert (Q : 31 <= n <-> 2 ^ 240 <= Z.abs (order - be_num s)).
  { change (2 ^ 240) with (256 ^ 30). destruct N as [[N1 N2] | [N1 N2]]; [rewrite N1, N2; split; [lia|]; intros Q; assert (0 < 256 ^ 30) by reflexivity; lia|]. split; intros Q.
    - assert (256 ^ 30 <= 256 ^ (n - 1)) by (apply Z.pow_le_mono_r; lia). lia.
    - destruct (Z.leb_spec 31 n); [assumption|]. assert (256 ^ n <= 256 ^ 30) by (apply Z.pow_le_mono_r; lia). lia. }
  assert (D1 : 31 <= n -> n + (33 - n) / 2 = 32).
  { intros G. assert (n = 31 \/ n = 32) as [-> | ->] by lia; reflexivity. }
  assert (D2 : n <= 30 -> n + (33 - n) / 2 < 32).
  { intros G. assert ((33 - n) / 2 < 32 - n) by (apply Z.div_lt_upper_bound; lia). lia. }
  split; [split|].
  - intros Q64. right. apply Q. destruct (Z.leb_spec 31 n); [assumption|]. specialize (D2 ltac:(lia)). lia.
  - intros [W|W]; [lia|]. apply Q in W. specialize (D1 W). lia.
  - destruct (Z.leb_spec 31 n) as [G|G]; [specialize (D1 G)|specialize (D2 ltac:(lia))]; lia.
Qed.
(** What the caller's own slice holds afterwards: the normalised signature when it has 64 bytes; otherwise its last
    bytes are those of the old s. *)
Theorem normalised_in_place : forall order half r s out, curve_pair order half -> length r = 32%nat -> is_bytes s -> length s = 32%nat ->
  serialize_s order half (r ++ s) = Ok out ->
  exists buf, serialize_s_in_place order half (r ++ s) = Ok buf /\ length buf = 64%nat /\
    (buf = out <-> length out = 64%nat) /\ exists t, buf = out ++ t /\ t = skipn (length out - 32) s.
Proof.
  intros order half r s out P Lr Bs Ls E. destruct (normalised_length_64_iff order half r s out P Lr Bs Ls E) as [_ Le].
  assert (Ge : (32 <= length out)%nat).
  { destruct (normalised_low_s order half r s P Lr Bs Ls) as (s' & E' & _). rewrite E in E'. assert (out = r ++ s') by congruence. subst. rewrite app_length. lia. }
  unfold serialize_s_in_place. rewrite E. cbn [bind]. eexists. split; [reflexivity|].
  assert (S : skipn (length out) (r ++ s) = skipn (length out - 32) s) by (rewrite skipn_app, Lr, skipn_all2 by lia; reflexivity).
  rewrite S. rewrite app_length, skipn_length. split; [lia|]. split; [|eauto]. split; intros Q.
  - apply (f_equal (@length Z)) in Q. rewrite app_length, skipn_length in Q. lia.
  - rewrite skipn_all2 by lia. apply app_nil_r.
Qed.

(** ** Examples *)
Definition ex_r : bytes := be_bytes 32 12345.
Definition ex_high : bytes := be_bytes 32 (secp_order - 77).
Example ex_pair : curve_pair secp_order secp_half /\ curve_pair p256_order p256_half.
Proof. split; [left|right]; split; reflexivity. Qed.
Example ex_args : length ex_r = 32%nat /\ length ex_high = 32%nat /\ is_bytes ex_high /\ secp_half < be_num ex_high.
Proof. split; [apply be_bytes_length|]. split; [apply be_bytes_length|]. split; [apply be_bytes_is_bytes|]. vm_compute. reflexivity. Qed.
(** n - 77 is replaced by 77 on 17 bytes: the signature has 49 bytes, and the caller's slice ends with 15 stale bytes. *)
Example ex_short : exists out, serialize_s secp_order secp_half (ex_r ++ ex_high) = Ok out /\ length out = 49%nat.
Proof. eexists. split; [vm_compute; reflexivity|]. vm_compute. reflexivity. Qed.
Example ex_full : exists out, serialize_s secp_order secp_half (ex_r ++ be_bytes 32 (secp_order - 2 ^ 241)) = Ok out /\ out = ex_r ++ be_bytes 32 (2 ^ 241).
Proof. eexists. split; [vm_compute; reflexivity|]. vm_compute. reflexivity. Qed.
Example ex_nbytes : nbytes 77 1 /\ nbytes 0 0.
Proof. split; [right; vm_compute; intuition discriminate|left; auto]. Qed.

Print Assumptions normalised_low_s.
Print Assumptions normalise_idempotent.
Print Assumptions normalise_keeps_low_s.
Print Assumptions normalise_panics_iff.
Print Assumptions normalised_length.
Print Assumptions normalised_length_64_iff.
Print Assumptions normalised_in_place.
