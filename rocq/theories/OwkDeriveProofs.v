From Coq Require Import ZArith List Bool Lia ZifyBool ZifyNat.
From Verif Require Import Go GoFacts GoFacts2 PadLoop Base58CheckSpec Base58CheckProofs OwkModel OwkSpec.
Import ListNotations.
Open Scope Z_scope.
Ltac Zify.zify_post_hook ::= idtac.

Lemma norm_idem c : norm_curve (norm_curve c) = norm_curve c.
Proof. destruct c; reflexivity. Qed.
Lemma clamp_bls_ok l : is_bytes l -> is_bytes (clamp_bls l) /\ length (clamp_bls l) = length l.
Proof.
  destruct l as [|b r]; intros H; [split; [constructor|reflexivity]|]. inversion H; subst. cbn [clamp_bls length]. split; [|reflexivity].
  constructor; [|assumption]. unfold is_byte in *. destruct (0x73 <=? b) eqn:E; lia.
Qed.
Lemma clamp_pasta_ok l : is_bytes l -> is_bytes (clamp_pasta l) /\ length (clamp_pasta l) = length l.
Proof.
  destruct l as [|a [|b [|c r]]]; intros H; cbn [clamp_pasta]; try (split; [exact H|reflexivity]).
  inversion H; subst. inversion H3; subst. inversion H5; subst. split; [|reflexivity].
  repeat (constructor; [unfold is_byte; lia|]). assumption.
Qed.
Lemma get_I_ok C (K : hashes_ok C) d k i c : is_bytes (get_I C d k i c) /\ length (get_I C d k i c) = 64%nat.
Proof.
  unfold get_I. set (h := hmac512 C k _). assert (H : is_bytes h /\ length h = 64%nat) by apply (hk_hmac _ K). clearbody h.
  destruct H as [H1 H2].
  assert (is_bytes (if is_bls c then clamp_bls h else h) /\ length (if is_bls c then clamp_bls h else h) = 64%nat) as [A B].
  { destruct (is_bls c); [|split; assumption]. destruct (clamp_bls_ok h H1) as [A B]. split; [exact A|congruence]. }
  destruct c; try (split; assumption). destruct (clamp_pasta_ok _ A) as [A' B']. split; [exact A'|exact (eq_trans B' B)].
Qed.
Lemma get_I_plain C d k i c : is_bls c = false -> c <> PASTA -> get_I C d k i c = digest C k d i.
Proof. intros E N. unfold get_I, digest. rewrite E. destruct c; try reflexivity. contradiction. Qed.

Lemma slice_firstn (l : bytes) n : Z.of_nat n <= zlen l -> slice l 0 (Z.of_nat n) = Ok (firstn n l).
Proof.
  intros H. unfold slice. replace ((0 <=? 0) && (0 <=? Z.of_nat n) && (Z.of_nat n <=? zlen l)) with true by lia.
  cbn [skipn Z.to_nat]. f_equal. f_equal. lia.
Qed.
Lemma slice_skipn (l : bytes) n : Z.of_nat n <= zlen l -> slice_from l (Z.of_nat n) = Ok (skipn n l).
Proof.
  intros H. unfold slice_from, slice. replace ((0 <=? Z.of_nat n) && (Z.of_nat n <=? zlen l) && (zlen l <=? zlen l)) with true by lia.
  f_equal. rewrite Nat2Z.id. apply firstn_all2. rewrite skipn_length. unfold zlen in *. lia.
Qed.
Lemma slice32 (l : bytes) : length l = 64%nat -> slice l 0 32 = Ok (firstn 32 l).
Proof. intros H. change 32 with (Z.of_nat 32). apply slice_firstn. unfold zlen. lia. Qed.
Lemma slice28 (l : bytes) : length l = 32%nat -> slice l 0 28 = Ok (firstn 28 l).
Proof. intros H. change 28 with (Z.of_nat 28). apply slice_firstn. unfold zlen. lia. Qed.
Lemma slice_from32 (l : bytes) : length l = 64%nat -> slice_from l 32 = Ok (skipn 32 l).
Proof. intros H. change 32 with (Z.of_nat 32). apply slice_skipn. unfold zlen. lia. Qed.
Lemma get_fp_ok C (K : hashes_ok C) k p c : get_fp C k p c = Ok (firstn 4 (hash160 C (if p then mulG C (norm_curve c) k else k))).
Proof.
  unfold get_fp. change 4 with (Z.of_nat 4). apply slice_firstn. destruct (hk_160 _ K (if p then mulG C (norm_curve c) k else k)) as [_ L].
  unfold zlen. rewrite L. lia.
Qed.

(** The two formulas of pri_child. *)
Lemma pri_child_other il k c : norm_curve c = c -> c <> ED25519 ->
  pri_child il k c = if (curve_order c <=? be_num il) || (be_num il =? 0) then Err else
    let m := (be_num il + be_num k) mod curve_order c in if m =? 0 then Err else Ok (pad32_buggy (big_bytes m)).
Proof. intros N E. unfold pri_child. rewrite N. destruct c; try reflexivity. contradiction. Qed.
Lemma pri_child_ed il k : length il = 32%nat ->
  pri_child il k ED25519 = let n := le_num (firstn 28 il) * 8 + le_num k in
    if n mod order_ed25519 =? 0 then Err else Ok (rev (pad32_buggy (big_bytes n))).
Proof.
  intros L. unfold pri_child. cbn [norm_curve curve_order]. rewrite slice28 by exact L. cbn [bind].
  rewrite !be_num_rev. reflexivity.
Qed.
Lemma big_bytes_len x n : 0 <= x < 256 ^ Z.of_nat n -> (length (big_bytes x) <= n)%nat.
Proof.
  intros H. pose proof (big_bytes_be_num (be_bytes n x) (be_bytes_is_bytes n x)) as E.
  rewrite be_num_be_bytes, Z.mod_small in E by exact H. rewrite E.
  pose proof (strip0_lead0 (be_bytes n x)) as S. apply (f_equal (@length Z)) in S. rewrite app_length, be_bytes_length in S. lia.
Qed.
Lemma big_bytes_len_exact x n : 256 ^ Z.of_nat n <= x < 256 ^ Z.of_nat (S n) -> length (big_bytes x) = S n.
Proof.
  intros H. assert (0 < 256 ^ Z.of_nat n) by (apply Z.pow_pos_nonneg; lia).
  pose proof (big_bytes_len x (S n) ltac:(lia)) as U. destruct (Nat.eq_dec (length (big_bytes x)) (S n)) as [|N]; [assumption|].
  pose proof (be_num_bound (big_bytes x) (big_bytes_bytes x)) as B. rewrite big_bytes_num, Z.abs_eq in B by lia.
  assert (256 ^ zlen (big_bytes x) <= 256 ^ Z.of_nat n) by (apply Z.pow_le_mono_r; unfold zlen; lia). lia.
Qed.
Lemma lead0_big x : 0 <= x < 256 ^ 32 -> be_bytes 32 x = zeros (32 - length (big_bytes x)) ++ big_bytes x.
Proof.
  intros H. pose proof (big_bytes_len x 32 H) as L. apply be_num_inj.
  - apply be_bytes_is_bytes.
  - apply is_bytes_app. split; [apply is_bytes_zeros|apply big_bytes_bytes].
  - rewrite be_bytes_length, app_length. unfold zeros. rewrite repeat_length. lia.
  - rewrite be_num_be_bytes, be_num_zeros, big_bytes_num, Z.mod_small, Z.abs_eq by (change (Z.of_nat 32) with 32; lia). reflexivity.
Qed.
Lemma big_bytes_hd x : 0 < x -> hd 1 (big_bytes x) <> 0.
Proof.
  intros H. pose proof (big_bytes_strip x) as S. pose proof (strip0_head (big_bytes x)) as Hd. rewrite S in Hd.
  destruct (big_bytes x); cbn [hd]; [discriminate|exact Hd].
Qed.
Lemma lead0_zeros_app n l : hd 1 l <> 0 -> lead0 (zeros n ++ l) = n.
Proof. intros H. induction n as [|n IH]; cbn [zeros repeat app lead0]; [destruct l as [|x l]; [reflexivity|apply lead0_nz; exact H]|f_equal; exact IH]. Qed.
Lemma lead0_be32 x : 0 < x < 256 ^ 32 -> lead0 (be_bytes 32 x) = (32 - length (big_bytes x))%nat.
Proof. intros H. rewrite lead0_big by lia. apply lead0_zeros_app, big_bytes_hd. lia. Qed.
(** Length of a padded scalar. *)
Lemma pad_len x : 0 < x < 256 ^ 32 -> length (pad32_buggy (big_bytes x)) = (32 - lead0 (be_bytes 32 x) / 2)%nat.
Proof.
  intros H. rewrite lead0_be32 by exact H. pose proof (big_bytes_len x 32 ltac:(change (Z.of_nat 32) with 32; lia)) as L.
  rewrite pad32_buggy_eq, app_length. unfold zeros. rewrite repeat_length. unfold zlen.
  set (m := length (big_bytes x)) in *. clearbody m.
  assert (E : Z.of_nat ((32 - m) / 2) = (32 - Z.of_nat m) / 2) by (rewrite Nat2Z.inj_div, Nat2Z.inj_sub by lia; reflexivity).
  assert (0 <= (33 - Z.of_nat m) / 2) by (apply Z.div_pos; lia).
  pose proof (Z.div_mod (33 - Z.of_nat m) 2 ltac:(lia)). pose proof (Z.mod_pos_bound (33 - Z.of_nat m) 2 ltac:(lia)).
  pose proof (Z.div_mod (32 - Z.of_nat m) 2 ltac:(lia)). pose proof (Z.mod_pos_bound (32 - Z.of_nat m) 2 ltac:(lia)).
  lia.
Qed.
Lemma pad_num x : 0 <= x -> be_num (pad32_buggy (big_bytes x)) = x.
Proof. intros H. rewrite pad32_num, big_bytes_num, Z.abs_eq by exact H. reflexivity. Qed.
Lemma curve_order_lt c : curve_order c < 256 ^ 32.
Proof. destruct c; vm_compute; reflexivity. Qed.

(** Normal form of GenPrivateChild and GenPublicChild. *)
Lemma gen_private_eq C (K : hashes_ok C) k i : let c := norm_curve (kind C (curve_type k)) in
  gen_private C k i =
    if depth k =? 255 then Err else if negb (is_private k) then Err else
    let I := get_I C (if 2 ^ 31 <=? i then key k else mulG C c (key k)) (chain_code k) i c in
    ch <- pri_child (firstn 32 I) (key k) c ;;
    Ok (mkKey (u8 (depth k + 1)) (firstn 4 (hash160 C (mulG C c (key k)))) i (skipn 32 I) ch true (curve_type k)).
Proof.
  cbv zeta. unfold gen_private. destruct (depth k =? 255); [reflexivity|]. destruct (is_private k) eqn:P; cbn [negb]; [|reflexivity].
  set (c := norm_curve _). set (I := get_I _ _ _ _ _). destruct (get_I_ok C K (if 2 ^ 31 <=? i then key k else mulG C c (key k)) (chain_code k) i c) as [_ L].
  fold I in L. rewrite slice32 by exact L. cbn [bind]. destruct (pri_child _ _ _); cbn [bind]; try reflexivity.
  rewrite slice_from32 by exact L. cbn [bind]. rewrite get_fp_ok by exact K. cbn [bind]. unfold c. rewrite norm_idem. reflexivity.
Qed.
Lemma gen_public_pub_eq C (K : hashes_ok C) k i : is_private k = false -> let c := norm_curve (kind C (curve_type k)) in
  gen_public C k i =
    if 2 ^ 31 <=? i then Err else
    let I := get_I C (key k) (chain_code k) i c in
    ch <- pub_child C (firstn 32 I) (key k) c ;;
    Ok (mkKey (u8 (depth k + 1)) (firstn 4 (hash160 C (key k))) i (skipn 32 I) ch false (curve_type k)).
Proof.
  intros P. cbv zeta. unfold gen_public. rewrite P. cbn [negb]. destruct (2 ^ 31 <=? i); [reflexivity|].
  set (c := norm_curve _). set (I := get_I _ _ _ _ _). destruct (get_I_ok C K (key k) (chain_code k) i c) as [_ L].
  fold I in L. rewrite slice32 by exact L. cbn [bind]. destruct (pub_child _ _ _); cbn [bind]; try reflexivity.
  assert (zlen I / 2 = 32) as -> by (unfold zlen; rewrite L; reflexivity).
  rewrite slice_from32 by exact L. cbn [bind]. rewrite get_fp_ok by exact K. reflexivity.
Qed.

(** pub_child in terms of the laws. *)
Lemma pub_child_other C c n P U il a : norm_curve c = c -> c <> ED25519 -> curve_laws C c n P U -> 0 < a < n ->
  is_bytes il -> length il = 32%nat ->
  pub_child C il (P a) c = if (curve_order c <=? be_num il) || (be_num il =? 0) then Err else
    if (a + be_num il) mod n =? 0 then Err else Ok (P ((a + be_num il) mod n)).
Proof.
  intros N E L Ha Hb Hl. unfold pub_child. rewrite N.
  assert (S : scalar_of c il = be_num il) by (destruct c; try reflexivity; contradiction).
  pose proof (cl_add _ _ _ _ _ L a il Ha Hb Hl) as A. cbv zeta in A. rewrite S in A.
  destruct ((curve_order c <=? be_num il) || (be_num il =? 0)); [destruct c; try reflexivity; contradiction|].
  rewrite (cl_dec _ _ _ _ _ L) by exact Ha. rewrite slice_from_cons. cbn [bind].
  pose proof (cl_n _ _ _ _ _ L) as N1. pose proof (Z.mod_pos_bound (a + be_num il) n ltac:(lia)) as MB.
  destruct ((a + be_num il) mod n =? 0) eqn:Z0.
  - destruct c; try contradiction; try discriminate; cbn [is_bls orb] in *; destruct (mul_add C _ _ _) as [p inf]; cbn [snd] in A; rewrite A; reflexivity.
  - destruct c; try contradiction; try discriminate; cbn [is_bls orb] in *; rewrite A; try rewrite (cl_com _ _ _ _ _ L) by lia; reflexivity.
Qed.
Lemma pub_child_ed C n P U il a : curve_laws C ED25519 n P U -> 0 < a < n -> is_bytes il -> length il = 32%nat ->
  pub_child C il (P a) ED25519 = let s := (a + le_num (firstn 28 il) * 8) mod n in if s =? 0 then Err else Ok (P s).
Proof.
  intros L Ha Hb Hl. unfold pub_child. cbn [norm_curve]. rewrite slice28 by exact Hl. cbn [bind]. rewrite be_num_rev.
  set (x := le_num (firstn 28 il) * 8).
  assert (B : 0 <= le_num (firstn 28 il) < 256 ^ 28).
  { pose proof (le_num_bound (firstn 28 il) (firstn_bytes 28 il Hb)) as Q. unfold zlen in Q. rewrite firstn_length, Hl in Q. exact Q. }
  assert (X : 0 <= x < 256 ^ 32) by (unfold x; change (256 ^ 28) with (256 ^ 28) in B; assert (256 ^ 28 * 8 < 256 ^ 32) by reflexivity; lia).
  rewrite <- (lead0_big x X).
  pose proof (cl_add _ _ _ _ _ L a (rev (be_bytes 32 x)) Ha) as A. cbn [is_bls orb scalar_of] in A. cbv zeta in A.
  specialize (A (is_bytes_rev _ (be_bytes_is_bytes 32 x)) ltac:(rewrite rev_length; apply be_bytes_length)).
  rewrite le_num_rev, be_num_be_bytes, (Z.mod_small x) in A by (change (Z.of_nat 32) with 32; exact X). cbv zeta.
  destruct ((a + x) mod n =? 0) eqn:Z0.
  - destruct (mul_add C _ _ _) as [p inf]. cbn [snd] in A. rewrite A. reflexivity.
  - rewrite A. reflexivity.
Qed.
