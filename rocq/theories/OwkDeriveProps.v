(** C22, C23, C24: the derivation rules of owkeychain. *)
From Coq Require Import ZArith List Bool Lia ZifyBool ZifyNat.
From Verif Require Import Go GoFacts GoFacts2 PadLoop Base58CheckSpec Base58CheckProofs Toy OwkModel OwkSpec OwkDeriveProofs.
Import ListNotations.
Open Scope Z_scope.
Ltac Zify.zify_post_hook ::= idtac.
(* injection on lists with closed counters unfolds them; this variant does not *)
Ltac ok_inj E := match type of E with Ok ?x = Ok ?y => assert (y = x) by (clear - E; congruence); clear E; subst y end.

(** ** C22 *)
(** Taking the public child of a private key is the private child's public key, for every index, hardened or not. *)
Theorem public_child_of_private_key C k i : is_private k = true ->
  gen_public C k i = match gen_private C k i with Ok ch => Ok (get_public C ch) | Err => Err | Panic => Panic end.
Proof.
  intros P. unfold gen_public. rewrite P. cbn [negb]. unfold gen_private. rewrite P. cbn [negb].
  destruct (depth k =? 255); [reflexivity|].
  destruct (slice _ 0 32); cbn [bind]; try reflexivity. destruct (pri_child _ _ _); cbn [bind]; try reflexivity.
  destruct (slice_from _ _); cbn [bind]; try reflexivity. destruct (get_fp _ _ _); cbn [bind]; reflexivity.
Qed.

Lemma commute_core C n P U k i : hashes_ok C -> let c := norm_curve (kind C (curve_type k)) in
  curve_laws C c n P U -> private_key_ok k -> scalar_of c (key k) mod n <> 0 -> depth k <> 255 -> 0 <= i < 2 ^ 31 ->
  (c <> PASTA /\ n = curve_order c) ->
  match gen_private C k i with
  | Ok ch => gen_public C (get_public C k) i =
      Ok (mkKey (depth ch) (parent_fp ch) (serializes ch) (chain_code ch) (P (scalar_of c (key ch) mod n)) false (curve_type ch)) /\
      is_bytes (key ch) /\ is_private ch = true /\ curve_type ch = curve_type k /\ scalar_of c (key ch) mod n <> 0
  | Err => gen_public C (get_public C k) i = Err
  | Panic => False
  end.
Proof.
  intros K c L (Pk & Hb & Hl) NZ D Hi (NP & En).
  rewrite gen_private_eq by exact K. fold c. cbv zeta.
  replace (depth k =? 255) with false by lia. rewrite Pk. cbn [negb]. replace (2 ^ 31 <=? i) with false by lia.
  assert (G : get_public C k = mkKey (depth k) (parent_fp k) (serializes k) (chain_code k) (mulG C c (key k)) false (curve_type k)).
  { unfold get_public. rewrite Pk. reflexivity. }
  rewrite G. rewrite gen_public_pub_eq by (exact K || reflexivity). cbn [curve_type key chain_code depth]. fold c. cbv zeta.
  replace (2 ^ 31 <=? i) with false by lia.
  set (I := get_I C (mulG C c (key k)) (chain_code k) i c).
  destruct (get_I_ok C K (mulG C c (key k)) (chain_code k) i c) as [IB IL]. fold I in IB, IL.
  assert (FB : is_bytes (firstn 32 I)) by (apply firstn_bytes, IB).
  assert (FL : length (firstn 32 I) = 32%nat) by (rewrite firstn_length, IL; reflexivity).
  assert (M : mulG C c (key k) = P (scalar_of c (key k) mod n)) by (apply (cl_mul _ _ _ _ _ L); assumption).
  assert (NI : norm_curve c = c) by apply norm_idem.
  pose proof (cl_n _ _ _ _ _ L) as N1. pose proof (Z.mod_pos_bound (scalar_of c (key k)) n ltac:(lia)) as MB.
  replace (pub_child C (firstn 32 I) (mulG C c (key k)) c) with (pub_child C (firstn 32 I) (P (scalar_of c (key k) mod n)) c) by (rewrite M; reflexivity). clearbody I c.
  destruct (match c with ED25519 => true | _ => false end) eqn:Ed.
  - assert (EC : c = ED25519) by (destruct c; try discriminate; reflexivity). rewrite EC in *. clear Ed.
    rewrite pri_child_ed by exact FL. cbn [scalar_of] in *. rewrite (pub_child_ed C n P U) by (assumption || lia). cbv zeta. cbn [curve_order] in En. rewrite <- En.
    set (x := le_num (firstn 28 (firstn 32 I)) * 8). set (z := le_num (key k)).
    rewrite Zplus_mod_idemp_l. rewrite (Z.add_comm z x).
    destruct ((x + z) mod n =? 0) eqn:Z0; cbn [bind]; [reflexivity|].
    assert (0 <= x + z).
    { pose proof (le_num_bound (firstn 28 (firstn 32 I)) (firstn_bytes _ _ FB)). pose proof (le_num_bound (key k) Hb). unfold x, z. lia. }
    cbn [depth parent_fp serializes chain_code key curve_type is_private]. rewrite le_num_rev, pad_num by lia.
    split; [|split; [apply is_bytes_rev, pad32_bytes, big_bytes_bytes|split; [reflexivity|split; [reflexivity|lia]]]].
    rewrite M. reflexivity.
  - assert (EC : c <> ED25519) by (intros E; rewrite E in Ed; discriminate). clear Ed.
    assert (S : forall b, scalar_of c b = be_num b) by (intros b; destruct c; try reflexivity; contradiction).
    rewrite pri_child_other by assumption. rewrite S in M, NZ, MB |- *. rewrite (pub_child_other C c n P U) by (assumption || lia). cbv zeta.
    set (x := be_num (firstn 32 I)). set (z := be_num (key k)) in *. rewrite <- En.
    destruct ((n <=? x) || (x =? 0)); cbn [bind]; [reflexivity|].
    rewrite Zplus_mod_idemp_l. rewrite (Z.add_comm z x).
    destruct ((x + z) mod n =? 0) eqn:Z0; cbn [bind]; [reflexivity|].
    cbn [depth parent_fp serializes chain_code key curve_type is_private].
    rewrite S, pad_num by (apply Z.mod_pos_bound; lia). rewrite Z.mod_mod by lia.
    split; [|split; [apply pad32_bytes, big_bytes_bytes|split; [reflexivity|split; [reflexivity|lia]]]]. rewrite M. reflexivity.
Qed.

(** For every parent, every non-hardened index, every group and every HMAC: deriving publicly from the parent's
    public key succeeds exactly when deriving privately does, with the same chain code, depth, fingerprint and
    index, and the public point is the one belonging to the private child's scalar; when the private child is
    stored on 32 bytes the two results are the same key. *)
Theorem public_derivation_commutes C n P U k i : hashes_ok C -> let c := norm_curve (kind C (curve_type k)) in
  curve_laws C c n P U -> c <> PASTA -> n = curve_order c ->
  private_key_ok k -> scalar_of c (key k) mod n <> 0 -> depth k <> 255 -> 0 <= i < 2 ^ 31 ->
  match gen_private C k i with
  | Ok ch =>
      gen_public C (get_public C k) i =
        Ok (mkKey (depth ch) (parent_fp ch) (serializes ch) (chain_code ch) (P (scalar_of c (key ch) mod n)) false (curve_type ch)) /\
      (length (key ch) = 32%nat -> gen_public C (get_public C k) i = Ok (get_public C ch))
  | Err => gen_public C (get_public C k) i = Err
  | Panic => False
  end.
Proof.
  intros K c L NP En Pk NZ D Hi. pose proof (commute_core C n P U k i K L Pk NZ D Hi (conj NP En)) as H. fold c in H.
  destruct (gen_private C k i) as [ch| |]; try exact H. destruct H as (H & B & Pc & Ct & NZ'). split; [exact H|]. intros Hl. rewrite H. f_equal.
  unfold get_public. rewrite Pc, Ct. cbn [negb]. fold c. f_equal. symmetry. apply (cl_mul _ _ _ _ _ L); assumption.
Qed.

(** The same for whole chains: a watch-only wallet that holds only the public key of [k] derives, along every
    list of non-hardened indices, the public key of what the private wallet derives - as long as every private
    key on the way is stored on 32 bytes. *)
Theorem watch_only_chain C n P U ct : hashes_ok C -> let c := norm_curve (kind C ct) in
  curve_laws C c n P U -> c <> PASTA -> n = curve_order c ->
  forall is k ch, curve_type k = ct -> private_key_ok k -> scalar_of c (key k) mod n <> 0 -> Forall (fun i => 0 <= i < 2 ^ 31) is ->
  derive_chain (gen_private C) k is = Ok ch ->
  (forall pre suf k', is = pre ++ suf -> derive_chain (gen_private C) k pre = Ok k' -> length (key k') = 32%nat) ->
  derive_chain (gen_public C) (get_public C k) is = Ok (get_public C ch).
Proof.
  intros K c L NP En. induction is as [|i is IH]; intros k ch Ct Pk NZ F E W; cbn [derive_chain] in *.
  - injection E as <-. reflexivity.
  - apply Forall_cons_iff in F as [H0 F]. assert (D : depth k <> 255).
    { intros D. unfold gen_private in E. rewrite D in E. cbn in E. discriminate. }
    destruct (gen_private C k i) as [k'| |] eqn:G; try discriminate.
    pose proof (commute_core C n P U k i K) as H. cbv zeta in H. rewrite Ct in H. specialize (H L Pk NZ D H0 (conj NP En)).
    rewrite G in H. destruct H as (_ & B & Pc & Ck & NZ').
    assert (L' : length (key k') = 32%nat).
    { apply (W [i] is k'); [reflexivity|]. cbn [derive_chain]. rewrite G. reflexivity. }
    pose proof (public_derivation_commutes C n P U k i K) as H. cbv zeta in H. rewrite Ct in H. specialize (H L NP En Pk NZ D H0).
    rewrite G in H. destruct H as [_ H]. rewrite (H L'). apply IH; try assumption.
    + repeat split; assumption.
    + intros pre suf k2 -> E2. apply (W (i :: pre) suf k2); [reflexivity|]. cbn [derive_chain]. rewrite G. exact E2.
Qed.

(** Pasta: the code reduces modulo 2^256-1 instead of the group order, so the two derivations agree when the
    parent scalar is below 2^255 and the child's scalar is not a multiple of the real order. *)
Lemma clamp_pasta_num l : is_bytes l -> length l = 64%nat -> be_num (firstn 32 (clamp_pasta l)) < 2 ^ 232.
Proof.
  destruct l as [|a [|b [|d r]]]; intros H L; try discriminate.
  assert (H3 : is_bytes r) by (inversion H; subst; inversion H3; subst; inversion H5; subst; assumption).
  change (firstn 32 (clamp_pasta (a :: b :: d :: r))) with (zeros 3 ++ firstn 29 r). rewrite be_num_zeros.
  pose proof (be_num_bound (firstn 29 r) (firstn_bytes _ _ H3)) as B. unfold zlen in B. rewrite firstn_length in B. cbn [length] in L.
  replace (Nat.min 29 (length r)) with 29%nat in B by lia. change (2 ^ 232) with (256 ^ Z.of_nat 29). lia.
Qed.
Theorem public_derivation_commutes_pasta C n P U k i ch : hashes_ok C -> kind C (curve_type k) = PASTA ->
  curve_laws C PASTA n P U -> private_key_ok k -> be_num (key k) mod n <> 0 -> be_num (key k) < 2 ^ 255 -> 0 <= i < 2 ^ 31 ->
  gen_private C k i = Ok ch -> be_num (key ch) mod n <> 0 -> length (key ch) = 32%nat ->
  gen_public C (get_public C k) i = Ok (get_public C ch).
Proof.
  intros K KP L (Pk & Hb & Hl) NZk Bk Hi E NZ L32. rewrite gen_private_eq in E by exact K. rewrite KP in E. cbn [norm_curve] in E. cbv zeta in E.
  destruct (depth k =? 255); [discriminate|]. rewrite Pk in E. cbn [negb] in E. replace (2 ^ 31 <=? i) with false in E by lia.
  assert (G : get_public C k = mkKey (depth k) (parent_fp k) (serializes k) (chain_code k) (mulG C PASTA (key k)) false (curve_type k)).
  { unfold get_public. rewrite Pk, KP. reflexivity. }
  rewrite G. rewrite gen_public_pub_eq by (exact K || reflexivity). cbn [curve_type key chain_code depth]. rewrite KP. cbn [norm_curve]. cbv zeta.
  replace (2 ^ 31 <=? i) with false by lia.
  set (I := get_I C (mulG C PASTA (key k)) (chain_code k) i PASTA) in *.
  destruct (get_I_ok C K (mulG C PASTA (key k)) (chain_code k) i PASTA) as [IB IL]. fold I in IB, IL.
  assert (IP : be_num (firstn 32 I) < 2 ^ 232).
  { unfold I, get_I. cbn [is_bls]. apply clamp_pasta_num; apply (hk_hmac _ K). }
  assert (FB : is_bytes (firstn 32 I)) by (apply firstn_bytes, IB).
  assert (FL : length (firstn 32 I) = 32%nat) by (rewrite firstn_length, IL; reflexivity).
  assert (M : mulG C PASTA (key k) = P (be_num (key k) mod n)) by (apply (cl_mul _ _ _ _ _ L); assumption).
  pose proof (cl_n _ _ _ _ _ L) as N1. pose proof (Z.mod_pos_bound (be_num (key k)) n ltac:(lia)) as MB. clearbody I.
  replace (pub_child C (firstn 32 I) (mulG C PASTA (key k)) PASTA) with (pub_child C (firstn 32 I) (P (be_num (key k) mod n)) PASTA) by (rewrite M; reflexivity).
  rewrite (pub_child_other C PASTA n P U) by (assumption || reflexivity || discriminate || lia).
  rewrite pri_child_other in E by (reflexivity || discriminate). cbn [curve_order] in *.
  destruct ((2 ^ 256 - 1 <=? be_num (firstn 32 I)) || (be_num (firstn 32 I) =? 0)); [discriminate|]. cbv zeta in E.
  pose proof (be_num_bound _ FB) as B1. pose proof (be_num_bound _ Hb) as B2.
  assert (Sm : (be_num (firstn 32 I) + be_num (key k)) mod (2 ^ 256 - 1) = be_num (firstn 32 I) + be_num (key k)).
  { apply Z.mod_small. assert (2 ^ 232 + 2 ^ 255 < 2 ^ 256 - 1) by reflexivity. lia. }
  rewrite Sm in E. destruct (_ =? 0) eqn:Z0 in E; [discriminate|]. cbn [bind] in E. ok_inj E. cbn [key] in *.
  assert (S0 : 0 <= be_num (firstn 32 I) + be_num (key k)) by (clear - B1 B2; lia).
  rewrite pad_num in NZ by exact S0. rewrite Zplus_mod_idemp_l, (Z.add_comm (be_num (key k))). apply Z.eqb_neq in NZ. rewrite NZ. cbn [bind]. f_equal.
  unfold get_public. cbn [is_private negb curve_type key depth parent_fp serializes chain_code]. rewrite KP. cbn [norm_curve]. f_equal.
  apply Z.eqb_neq in NZ. rewrite (cl_mul _ _ _ _ _ L); cbn [scalar_of]; rewrite ?pad_num by exact S0; [reflexivity|apply pad32_bytes, big_bytes_bytes|exact L32|exact NZ].
Qed.

(** ** 25519 keys made from a seed never lose bytes. *)
Lemma map_nth_byte_ok l : forall j f, is_bytes l -> (forall b, is_byte b -> is_byte (f b)) ->
  is_bytes (map_nth_byte l j f) /\ length (map_nth_byte l j f) = length l.
Proof.
  induction l as [|x l IH]; intros j f H F; [split; [destruct j; constructor|destruct j; reflexivity]|]. inversion H; subst.
  destruct j as [|j]; cbn [map_nth_byte length].
  - split; [constructor; [apply F; assumption|assumption]|reflexivity].
  - destruct (IH j f H3 F) as [A B]. split; [constructor; assumption|congruence].
Qed.
Lemma map_nth_byte_split j : forall l f, (j < length l)%nat -> map_nth_byte l j f = firstn j l ++ f (nth j l 0) :: skipn (S j) l.
Proof.
  induction j as [|j IH]; intros [|x l] f H; cbn [length] in H; try lia; cbn [map_nth_byte firstn nth skipn app]; [reflexivity|].
  f_equal. rewrite IH by lia. reflexivity.
Qed.
Lemma land_byte b m : 0 <= b -> 0 <= m < 256 -> is_byte (Z.land b m).
Proof.
  intros Hb Hm. unfold is_byte. split; [apply Z.land_nonneg; lia|].
  destruct (Z.eq_dec (Z.land b m) 0) as [->|N]; [lia|].
  assert (0 <= Z.land b m) by (apply Z.land_nonneg; lia).
  change 256 with (2 ^ 8). apply Z.log2_lt_pow2; [lia|].
  pose proof (Z.log2_land b m ltac:(lia) ltac:(lia)). destruct (Z.eq_dec m 0) as [->|]; [rewrite Z.land_0_r in N; lia|].
  assert (Z.log2 m < 8) by (apply Z.log2_lt_pow2; lia). lia.
Qed.
Lemma clamp31 b : is_byte b -> 64 <= Z.lor (Z.land b 63) 64 < 128.
Proof.
  intros H. assert (E : Z.land b 63 = b mod 64) by (change 63 with (Z.ones 6); rewrite Z.land_ones by lia; reflexivity).
  rewrite E. pose proof (Z.mod_pos_bound b 64 ltac:(lia)) as B. set (m := b mod 64) in *. clearbody m.
  assert (D : Z.land m 64 = 0).
  { apply Z.bits_inj'. intros j Hj. rewrite Z.land_spec, Z.bits_0. change 64 with (2 ^ 6). rewrite Z.pow2_bits_eqb by lia.
    destruct (6 =? j) eqn:J; [|apply andb_false_r]. apply Z.eqb_eq in J. subst j. rewrite andb_true_r.
    destruct (Z.eq_dec m 0) as [->|]; [apply Z.bits_0|]. apply Z.bits_above_log2; [lia|]. apply Z.log2_lt_pow2; lia. }
  rewrite <- Z.lxor_lor by exact D. rewrite <- Z.add_nocarry_lxor by exact D. lia.
Qed.
Lemma root_25519 C seed ct k : hashes_ok C -> is_25519 (kind C ct) -> init_root C seed ct = Ok k ->
  is_private k = true /\ curve_type k = ct /\ depth k = 0 /\ is_bytes (key k) /\ length (key k) = 32%nat /\ 2 ^ 254 <= le_num (key k) < 2 ^ 255.
Proof.
  intros K T E. unfold init_root in E. destruct (_ || _); [discriminate|].
  destruct (hk_sha512 _ K seed) as [B L]. set (h := sha512 C seed) in *. clearbody h.
  assert (E' : (k0 <- slice (map_nth_byte (map_nth_byte h 0 (fun b => Z.land b 248)) 31 (fun b => Z.lor (Z.land b 63) 64)) 0 32 ;;
    cc <- slice_from (map_nth_byte (map_nth_byte h 0 (fun b => Z.land b 248)) 31 (fun b => Z.lor (Z.land b 63) 64)) 32 ;;
    Ok (mkKey 0 [0;0;0;0] 0 cc k0 true ct)) = Ok k).
  { destruct T as [T|[T|T]]; rewrite T in E; exact E. }
  clear E. set (h1 := map_nth_byte h 0 _) in E'.
  destruct (map_nth_byte_ok h 0 (fun b => Z.land b 248) B) as [B1 L1]. { intros b Hb. unfold is_byte in Hb. apply land_byte; lia. }
  fold h1 in B1, L1. destruct (map_nth_byte_ok h1 31 (fun b => Z.lor (Z.land b 63) 64) B1) as [B2 L2].
  { intros b Hb. pose proof (clamp31 b Hb). unfold is_byte. lia. }
  set (h2 := map_nth_byte h1 31 _) in *. rewrite slice32 in E' by congruence. cbn [bind] in E'. rewrite slice_from32 in E' by congruence. cbn [bind] in E'.
  ok_inj E'. cbn [is_private curve_type depth key].
  split; [reflexivity|split; [reflexivity|split; [reflexivity|]]]. split; [apply firstn_bytes, B2|]. split; [rewrite firstn_length; lia|].
  unfold h2. rewrite map_nth_byte_split by lia. set (b31 := Z.lor _ 64).
  assert (Hb31 : 64 <= b31 < 128).
  { apply clamp31. unfold is_bytes in B1. rewrite Forall_forall in B1. apply B1. apply nth_In. lia. }
  assert (FL : length (firstn 31 h1) = 31%nat) by (rewrite firstn_length; lia).
  rewrite firstn_app, FL. rewrite firstn_all2 by lia. change (firstn (32 - 31) (b31 :: skipn 32 h1)) with [b31].
  rewrite le_num_app. pose proof (le_num_bound (firstn 31 h1) (firstn_bytes _ _ B1)) as LB.
  assert (ZL : zlen (firstn 31 h1) = 31) by (unfold zlen; lia). rewrite ZL in *. cbn [le_num].
  clearbody b31. generalize dependent (le_num (firstn 31 h1)). intros u LB.
  assert (E1 : 2 ^ 254 = 256 ^ 31 * 64) by reflexivity. assert (E2 : 2 ^ 255 = 256 ^ 31 * 128) by reflexivity. rewrite E1, E2. clear - LB Hb31.
  set (q := 256 ^ 31) in *. assert (0 < q) by reflexivity. clearbody q. nia.
Qed.
Theorem keys_25519_are_full_length C seed ct k : hashes_ok C -> is_25519 (kind C ct) -> derived_from C seed ct k ->
  private_key_ok k /\ curve_type k = ct /\ 0 <= depth k <= 255 /\ 2 ^ 254 <= le_num (key k) < 2 ^ 255 + depth k * 2 ^ 227.
Proof.
  intros K T. induction 1 as [k E|k i k' H IH Hi E].
  - destruct (root_25519 C seed ct k K T E) as (P & Ct & D & B & L & V). rewrite D. unfold private_key_ok. split; [auto|]. split; [exact Ct|]. split; [split; lia|]. rewrite Z.mul_0_l, Z.add_0_r. exact V.
  - destruct IH as ((P & B & L) & Ct & D & V). rewrite gen_private_eq in E by exact K. rewrite Ct in E. cbv zeta in E.
    assert (NC : norm_curve (kind C ct) = ED25519) by (destruct T as [-> | [-> | ->]]; reflexivity). rewrite NC in E.
    destruct (depth k =? 255) eqn:D255; [discriminate|]. rewrite P in E. cbn [negb] in E.
    set (I := get_I C _ _ _ _) in E. destruct (get_I_ok C K (if 2 ^ 31 <=? i then key k else mulG C ED25519 (key k)) (chain_code k) i ED25519) as [IB IL].
    fold I in IB, IL. clearbody I. rewrite pri_child_ed in E by (rewrite firstn_length, IL; reflexivity). cbv zeta in E.
    set (x := le_num (firstn 28 (firstn 32 I))) in E.
    assert (XB : 0 <= x < 2 ^ 224).
    { pose proof (le_num_bound (firstn 28 (firstn 32 I)) (firstn_bytes _ _ (firstn_bytes _ _ IB))) as Q. unfold zlen in Q.
      rewrite !firstn_length, IL in Q. change (256 ^ Z.of_nat (Nat.min 28 (Nat.min 32 64))) with (2 ^ 224) in Q. exact Q. }
    clearbody x. destruct (_ =? 0); [discriminate|]. cbn [bind] in E. ok_inj E. cbn [is_private key curve_type depth].
    set (y := x * 8 + le_num (key k)) in *.
    assert (YB : 2 ^ 254 <= y < 2 ^ 255 + (depth k + 1) * 2 ^ 227).
    { unfold y. assert (2 ^ 227 = 8 * 2 ^ 224) by reflexivity. lia. }
    assert (YU : y < 256 ^ 32).
    { assert (2 ^ 255 + 256 * 2 ^ 227 < 256 ^ 32) by reflexivity. assert ((depth k + 1) * 2 ^ 227 <= 256 * 2 ^ 227) by (apply Z.mul_le_mono_nonneg_r; lia). lia. }
    assert (YL : length (big_bytes y) = 32%nat).
    { apply big_bytes_len_exact. change (256 ^ Z.of_nat 31) with (2 ^ 248). change (256 ^ Z.of_nat 32) with (256 ^ 32).
      assert (2 ^ 248 < 2 ^ 254) by reflexivity. lia. }
    assert (PE : pad32_buggy (big_bytes y) = big_bytes y).
    { rewrite pad32_buggy_eq. unfold zlen. rewrite YL. reflexivity. }
    rewrite PE. rewrite le_num_rev, big_bytes_num, Z.abs_eq by lia.
    unfold u8. rewrite Z.mod_small by lia. unfold private_key_ok. cbn [is_private key].
    repeat split; try reflexivity; try exact Ct; try lia; [apply is_bytes_rev, big_bytes_bytes|rewrite rev_length; exact YL].
Qed.
(** Hence on the 25519 curves the two derivations agree for every key made from a seed and every non-hardened
    index, without any side condition on lengths. *)
Theorem public_derivation_commutes_25519 C P U seed ct k i : hashes_ok C -> is_25519 (kind C ct) ->
  curve_laws C ED25519 order_ed25519 P U -> derived_from C seed ct k -> depth k <> 255 -> 0 <= i < 2 ^ 31 ->
  le_num (key k) mod order_ed25519 <> 0 ->
  match gen_private C k i with
  | Ok ch => gen_public C (get_public C k) i = Ok (get_public C ch)
  | Err => gen_public C (get_public C k) i = Err
  | Panic => False
  end.
Proof.
  intros K T L H D Hi NZ. destruct (keys_25519_are_full_length C seed ct k K T H) as (Pk & Ct & _ & _).
  assert (NC : norm_curve (kind C (curve_type k)) = ED25519) by (rewrite Ct; destruct T as [-> | [-> | ->]]; reflexivity).
  pose proof (public_derivation_commutes C order_ed25519 P U k i K) as Q. cbv zeta in Q. rewrite NC in Q.
  specialize (Q L ltac:(discriminate) eq_refl Pk NZ D Hi). destruct (gen_private C k i) as [ch| |] eqn:E; try exact Q.
  destruct Q as [_ Q]. apply Q.
  destruct (keys_25519_are_full_length C seed ct ch K T) as ((_ & _ & LL) & _); [|exact LL].
  eapply df_child; [exact H| |exact E]. lia.
Qed.

(** The wallet-level form: the addresses a watch-only wallet computes from GetCoinRootPublicKey belong to the
    private keys DerivedPrivateKeyBytes returns. *)
Theorem coin_root_matches_private_keys C n P U seed hd ct t root i kb : hashes_ok C -> let c := norm_curve (kind C ct) in
  curve_laws C c n P U -> c <> PASTA -> n = curve_order c -> 0 <= i < 2 ^ 31 ->
  derive_private_path C seed open_wallet_path ct = Ok t -> gen_private C t hd = Ok root ->
  private_key_ok root -> scalar_of c (key root) mod n <> 0 -> curve_type root = ct -> length kb = 32%nat ->
  derived_private_bytes C seed hd ct i = Ok kb ->
  exists r ch, coin_root_public C seed hd ct = Ok r /\ is_private r = false /\
    gen_public C r i = Ok ch /\ is_private ch = false /\ key ch = mulG C c kb.
Proof.
  intros K c L NP En Hi Et Er Pr NZ Ct Lk E. unfold derived_private_bytes in E. rewrite Et in E. cbn [bind] in E. rewrite Er in E. cbn [bind] in E.
  destruct (gen_private C root i) as [ch| |] eqn:G; try discriminate. cbn [bind] in E. injection E as <-.
  exists (get_public C root), (get_public C ch). unfold coin_root_public. rewrite Et. cbn [bind].
  assert (Pt : is_private t = true).
  { unfold gen_private in Er. destruct (depth t =? 255); [discriminate|]. destruct (is_private t); [reflexivity|discriminate]. }
  rewrite public_child_of_private_key by exact Pt. rewrite Er. split; [reflexivity|].
  assert (D : depth root <> 255). { intros D. unfold gen_private in G. rewrite D in G. discriminate. }
  pose proof (commute_core C n P U root i K) as Q. cbv zeta in Q. rewrite Ct in Q. specialize (Q L Pr NZ D Hi (conj NP En)). rewrite G in Q.
  destruct Q as (_ & B & Pc & Cc & _).
  pose proof (public_derivation_commutes C n P U root i K) as Q. cbv zeta in Q. rewrite Ct in Q. specialize (Q L NP En Pr NZ D Hi). rewrite G in Q.
  destruct Q as [_ Q]. split; [unfold get_public; destruct Pr as (-> & _); reflexivity|]. split; [exact (Q Lk)|].
  unfold get_public. rewrite Pc. cbn [negb key is_private]. split; [reflexivity|]. rewrite Cc. reflexivity.
Qed.

(** ** C23 *)
(** A public key never yields a private key, nor a hardened child. *)
Theorem public_key_refuses C k i : is_private k = false ->
  gen_private C k i = Err /\ (2 ^ 31 <= i -> gen_public C k i = Err).
Proof.
  intros P. split.
  - unfold gen_private. rewrite P. destruct (depth k =? 255); reflexivity.
  - intros H. unfold gen_public. rewrite P. cbn [negb]. replace (2 ^ 31 <=? i) with true by lia. reflexivity.
Qed.
Lemma gen_private_private C k i k' : gen_private C k i = Ok k' -> is_private k = true /\ depth k <> 255 /\ is_private k' = true /\ depth k' = u8 (depth k + 1) /\ curve_type k' = curve_type k /\ serializes k' = i.
Proof.
  unfold gen_private. destruct (depth k =? 255) eqn:D; [discriminate|]. destruct (is_private k); cbn [negb]; [|discriminate].
  intros E. apply bind_ok in E as (il & _ & E). apply bind_ok in E as (ch & _ & E). apply bind_ok in E as (cc & _ & E). apply bind_ok in E as (fp & _ & E).
  injection E as <-. cbn [is_private depth curve_type serializes]. repeat split; lia.
Qed.
Lemma gen_public_public C k i k' : gen_public C k i = Ok k' -> is_private k' = false /\ depth k' = u8 (depth k + 1) /\ curve_type k' = curve_type k /\ serializes k' = i.
Proof.
  unfold gen_public. destruct (is_private k); cbn [negb].
  - intros E. apply bind_ok in E as (p & Ep & E). injection E as <-. repeat split.
  - destruct (2 ^ 31 <=? i); [discriminate|]. intros E. apply bind_ok in E as (il & _ & E). apply bind_ok in E as (ch & _ & E).
    apply bind_ok in E as (cc & _ & E). apply bind_ok in E as (fp & _ & E). injection E as <-. repeat split.
Qed.
(** Over every history of derivations that starts at a public key: all keys stay public, private derivation and
    hardened derivation are refused everywhere. *)
Theorem public_history_stays_public C k0 k : is_private k0 = false -> derived_any C k0 k ->
  is_private k = false /\ (forall i, gen_private C k i = Err) /\ (forall i, 2 ^ 31 <= i -> gen_public C k i = Err).
Proof.
  intros P H. assert (Q : is_private k = false).
  { induction H as [|k i k' H IH Hi E|k i k' H IH Hi E|k H IH].
    - exact P.
    - apply gen_private_private in E as (E & _). congruence.
    - apply gen_public_public in E as (E & _). exact E.
    - unfold get_public. rewrite IH. exact IH. }
  split; [exact Q|]. split; intros i; [|intros Hi]; apply (public_key_refuses C k i Q); exact Hi.
Qed.
(** A chain of private derivations from a seed has at most 255 steps, and the depth counts them. *)
Theorem private_chain_depth C seed ct root is k : init_root C seed ct = Ok root ->
  derive_chain (gen_private C) root is = Ok k -> depth k = zlen is /\ zlen is <= 255.
Proof.
  intros R. assert (D0 : depth root = 0).
  { unfold init_root in R. destruct (_ || _); [discriminate|]. apply bind_ok in R as (a & _ & R). apply bind_ok in R as (b & _ & R). injection R as <-. reflexivity. }
  assert (G : forall is k0 k, 0 <= depth k0 <= 255 -> derive_chain (gen_private C) k0 is = Ok k -> depth k = depth k0 + zlen is /\ depth k <= 255).
  { clear is k. induction is as [|i is IH]; intros k0 k Hd E; cbn [derive_chain] in E.
    - injection E as <-. change (zlen (@nil Z)) with 0. lia.
    - destruct (gen_private C k0 i) as [k1| |] eqn:E1; try discriminate. apply gen_private_private in E1 as (_ & N & _ & D & _).
      unfold u8 in D. rewrite Z.mod_small in D by lia. destruct (IH k1 k ltac:(lia) E) as [A B]. rewrite zlen_cons. lia. }
  intros E. destruct (G is root k ltac:(lia) E). lia.
Qed.
(** At depth 255 a private key derives nothing, neither private nor public. *)
Theorem depth_255_private_refused C k i : depth k = 255 -> is_private k = true -> gen_private C k i = Err /\ gen_public C k i = Err.
Proof.
  intros D P. assert (gen_private C k i = Err) by (unfold gen_private; rewrite D; reflexivity). split; [assumption|].
  rewrite public_child_of_private_key by exact P. rewrite H. reflexivity.
Qed.
(** Public derivation has no such limit: the depth is counted modulo 256, so after 256 steps the chain claims
    its starting depth again. *)
Theorem public_chain_depth C is k0 k : 0 <= depth k0 < 256 -> derive_chain (gen_public C) k0 is = Ok k -> depth k = (depth k0 + zlen is) mod 256.
Proof.
  revert k0. induction is as [|i is IH]; intros k0 Hd E; cbn [derive_chain] in E.
  - injection E as <-. change (zlen (@nil Z)) with 0. rewrite Z.add_0_r, Z.mod_small by lia. reflexivity.
  - destruct (gen_public C k0 i) as [k1| |] eqn:E1; try discriminate. apply gen_public_public in E1 as (_ & D & _).
    assert (B : 0 <= depth k1 < 256) by (rewrite D; apply Z.mod_pos_bound; reflexivity).
    rewrite (IH k1 B E), D. unfold u8. change (2 ^ 8) with 256. rewrite Zplus_mod_idemp_l, zlen_cons. f_equal. lia.
Qed.
Theorem public_depth_wraps C k i k' : is_private k = false -> depth k = 255 -> gen_public C k i = Ok k' -> depth k' = 0.
Proof. intros P D E. apply gen_public_public in E as (_ & E & _). rewrite E, D. reflexivity. Qed.
(** ... and it does succeed there whenever the digest is acceptable: for a public key at any depth, success
    depends only on the key, the chain code and the index. *)
Theorem public_derivation_ignores_depth C k i d : is_private k = false ->
  match gen_public C k i, gen_public C (mkKey d (parent_fp k) (serializes k) (chain_code k) (key k) (is_private k) (curve_type k)) i with
  | Ok a, Ok b => key a = key b /\ chain_code a = chain_code b
  | Err, Err => True
  | Panic, Panic => True
  | _, _ => False
  end.
Proof.
  intros P. unfold gen_public. cbn [is_private curve_type key chain_code depth]. rewrite P. cbn [negb].
  destruct (2 ^ 31 <=? i); [exact I|]. destruct (slice _ 0 32); cbn [bind]; try exact I. destruct (pub_child _ _ _ _); cbn [bind]; try exact I.
  destruct (slice_from _ _); cbn [bind]; try exact I. destruct (get_fp _ _ _ _); cbn [bind]; try exact I. split; reflexivity.
Qed.

(** ** C24 *)
(** On every curve other than the 25519 ones: the private child, read as a number, is (IL + parent) mod order,
    where IL is the left half of the derivation digest; it is stored on 32 bytes minus half of its leading zero
    bytes (rounded down). *)
Theorem private_child_scalar_and_length C k i ch : hashes_ok C -> let c := kind C (curve_type k) in
  ~ is_25519 c -> is_bls c = false -> c <> PASTA -> is_bytes (key k) ->
  gen_private C k i = Ok ch ->
  let il := be_num (firstn 32 (digest C (chain_code k) (if 2 ^ 31 <=? i then key k else mulG C c (key k)) i)) in
  let v := (il + be_num (key k)) mod curve_order c in
  0 < il < curve_order c /\ 0 < v /\ be_num (key ch) = v /\ is_bytes (key ch) /\
  length (key ch) = (32 - lead0 (be_bytes 32 v) / 2)%nat.
Proof.
  intros K c N25 NB NP Hb E il v. assert (NC : norm_curve c = c) by (destruct c; try reflexivity; exfalso; apply N25; unfold is_25519; auto).
  assert (NE : c <> ED25519) by (intros Q; apply N25; left; exact Q).
  rewrite gen_private_eq in E by exact K. cbv zeta in E. change (kind C (curve_type k)) with c in E. rewrite NC in E.
  destruct (depth k =? 255); [discriminate|]. destruct (is_private k); cbn [negb] in E; [|discriminate].
  rewrite get_I_plain in E by assumption. set (J := digest C _ _ _) in E. 
  assert (IB : is_bytes (firstn 32 J)) by (apply firstn_bytes; apply (hk_hmac _ K)).
  rewrite pri_child_other in E by assumption. change (be_num (firstn 32 J)) with il in E.
  assert (I0 : 0 <= il) by (apply (be_num_bound _ IB)).
  destruct ((curve_order c <=? il) || (il =? 0)) eqn:Q; [discriminate|]. cbv zeta in E. fold v in E.
  assert (V : 0 <= v < curve_order c) by (apply Z.mod_pos_bound; lia). pose proof (curve_order_lt c) as OL.
  destruct (v =? 0) eqn:V0; [discriminate|]. cbn [bind] in E. ok_inj E. cbn [key].
  split; [lia|]. split; [lia|]. split; [apply pad_num; lia|]. split; [apply pad32_bytes, big_bytes_bytes|]. apply pad_len. lia.
Qed.
(** So a derived key has 32 bytes if and only if its scalar has at most one leading zero byte. *)
Theorem private_child_full_length_iff C k i ch : hashes_ok C -> let c := kind C (curve_type k) in
  ~ is_25519 c -> is_bls c = false -> c <> PASTA -> is_bytes (key k) ->
  gen_private C k i = Ok ch -> (length (key ch) = 32%nat <-> 2 ^ 240 <= be_num (key ch)).
Proof.
  intros K c N25 NB NP Hb E. destruct (private_child_scalar_and_length C k i ch K N25 NB NP Hb E) as (_ & V & EV & B & L).
  fold c in V, EV, L. set (v := _ mod curve_order c) in *. rewrite EV, L. clear L EV.
  assert (VU : v < 256 ^ 32).
  { pose proof (curve_order_lt c). assert (v < curve_order c); [|lia]. apply Z.mod_pos_bound.
    destruct (Z.eq_dec (curve_order c) 0) as [Q|Q]; [|destruct c; cbn [curve_order] in *; lia || reflexivity].
    exfalso. rewrite gen_private_eq in E by exact K. cbv zeta in E. destruct (depth k =? 255); [discriminate|]. destruct (negb (is_private k)); [discriminate|].
    assert (CO : kind C (curve_type k) = OtherCurve) by (fold c; destruct c; cbn in Q; try discriminate; reflexivity). rewrite CO in E. cbn [norm_curve] in E.
    rewrite get_I_plain in E by (reflexivity || discriminate). rewrite pri_child_other in E by (reflexivity || discriminate).
    match type of E with context [be_num (firstn 32 ?J)] => assert (0 <= be_num (firstn 32 J)) by (apply be_num_bound, firstn_bytes; apply (hk_hmac _ K)) end.
    cbn [curve_order] in E. replace (_ || _) with true in E; [discriminate|]. symmetry. apply orb_true_iff. left. lia. }
  clearbody v. rewrite lead0_be32 by lia.
  pose proof (big_bytes_len v 32 ltac:(change (Z.of_nat 32) with 32; lia)) as U.
  assert (D2 : forall m : nat, (32 - m / 2 = 32)%nat <-> (m < 2 \/ 66 <= m - m)%nat).
  { intros m. pose proof (Nat.div_mod m 2 ltac:(lia)). pose proof (Nat.mod_upper_bound m 2 ltac:(lia)). lia. }
  rewrite D2. split; intros H.
  - assert (31 <= length (big_bytes v))%nat by lia. destruct (Z_lt_ge_dec v (2 ^ 240)) as [Q|Q]; [|lia].
    pose proof (big_bytes_len v 30 ltac:(change (256 ^ Z.of_nat 30) with (2 ^ 240); lia)). lia.
  - left. destruct (Z_lt_ge_dec v (2 ^ 248)) as [Q|Q].
    + rewrite (big_bytes_len_exact v 30) by (change (256 ^ Z.of_nat 30) with (2 ^ 240); change (256 ^ Z.of_nat 31) with (2 ^ 248); lia). lia.
    + rewrite (big_bytes_len_exact v 31) by (change (256 ^ Z.of_nat 31) with (2 ^ 248); change (256 ^ Z.of_nat 32) with (256 ^ 32); lia). lia.
Qed.

(** ** Examples *)
From Verif Require Import OwkToy.
Lemma forallb_bytes l : forallb is_byteb l = true -> is_bytes l.
Proof.
  intros H. rewrite forallb_forall in H. apply Forall_forall. intros x Hx. apply H in Hx. unfold is_byteb in Hx. unfold is_byte. lia.
Qed.
Example ex_commutes : let k := toy_root 1 in
  private_key_ok k /\ scalar_of SECP256K1 (key k) mod order_secp256k1 <> 0 /\
  exists ch, gen_private toyC k 5 = Ok ch /\ length (key ch) = 32%nat /\ gen_public toyC (get_public toyC k) 5 = Ok (get_public toyC ch) /\
    key (get_public toyC ch) <> key (get_public toyC k).
Proof.
  cbv zeta. split; [split; [vm_compute; reflexivity|split; [apply forallb_bytes|]; vm_compute; reflexivity]|]. split; [vm_compute; discriminate|].
  eexists. split; [vm_compute; reflexivity|]. split; [vm_compute; reflexivity|]. split; [vm_compute; reflexivity|vm_compute; discriminate].
Qed.
Example ex_commutes_laws : hashes_ok toyC /\ curve_laws toyC SECP256K1 order_secp256k1 (toy_P SECP256K1) toy_U /\
  curve_laws toyC ED25519 order_ed25519 (toy_P ED25519) toy_U /\ curve_laws toyC BLS12381_NUL order_bls (toy_P BLS12381_NUL) toy_U /\
  exists n, curve_laws toyC PASTA n (toy_P PASTA) toy_U.
Proof.
  split; [exact toyC_hashes|]. split; [apply toy_laws; discriminate|]. split; [apply toy_laws; discriminate|].
  split; [apply toy_laws; discriminate|]. exists (curve_order PASTA). apply toy_laws; discriminate.
Qed.
Example ex_25519 : is_25519 (kind toyC 2) /\ is_25519 (kind toyC 5) /\ derived_from toyC toy_seed 2 (toy_root 2) /\
  le_num (key (toy_root 2)) mod order_ed25519 <> 0 /\
  exists ch, gen_private toyC (toy_root 2) 9 = Ok ch /\ gen_public toyC (get_public toyC (toy_root 2)) 9 = Ok (get_public toyC ch).
Proof.
  split; [left; reflexivity|]. split; [right; left; reflexivity|]. split; [apply df_root; vm_compute; reflexivity|].
  split; [vm_compute; discriminate|]. eexists. split; [vm_compute; reflexivity|vm_compute; reflexivity].
Qed.
Example ex_chain : exists ch, derive_chain (gen_private toyC) (toy_root 1) [2 ^ 31 - 1; 0] = Ok ch /\ depth ch = 2 /\
  derive_chain (gen_public toyC) (get_public toyC (toy_root 1)) [2 ^ 31 - 1; 0] = Ok (get_public toyC ch).
Proof. eexists. split; [vm_compute; reflexivity|]. split; vm_compute; reflexivity. Qed.
Example ex_pasta : kind toyC (curve_type (toy_root 4)) = PASTA /\ be_num (key (toy_root 4)) < 2 ^ 255 /\
  exists ch, gen_private toyC (toy_root 4) 9 = Ok ch /\ length (key ch) = 32%nat /\ be_num (key ch) mod (curve_order PASTA) <> 0.
Proof. split; [reflexivity|]. split; [vm_compute; reflexivity|]. eexists. split; [vm_compute; reflexivity|]. split; [reflexivity|vm_compute; discriminate]. Qed.
Example ex_coin_root : exists t root kb, derive_private_path toyC toy_seed open_wallet_path 1 = Ok t /\ gen_private toyC t 0 = Ok root /\
  length (key root) = 32%nat /\ curve_type root = 1 /\ derived_private_bytes toyC toy_seed 0 1 7 = Ok kb /\ length kb = 32%nat.
Proof. do 3 eexists. split; [vm_compute; reflexivity|]. split; [vm_compute; reflexivity|]. split; [reflexivity|]. split; [reflexivity|]. split; [vm_compute; reflexivity|reflexivity]. Qed.
(** A public key at depth 255 whose public child claims depth 0. *)
Example ex_wrap : let k := mkKey 255 [0;0;0;0] 0 (be_bytes 32 9) (2 :: be_bytes 32 77) false 1 in
  exists ch, gen_public toyC k 5 = Ok ch /\ depth ch = 0.
Proof. eexists. split; [vm_compute; reflexivity|reflexivity]. Qed.
(** A private child that loses 15 bytes: IL = 5 and parent = order - 4, so the child scalar is 1. *)
Definition const_hmac (k m : bytes) : bytes := be_bytes 32 5 ++ be_bytes 32 77.
Example ex_short : let C := toy_crypto const_hmac in let k := mkKey 0 [0;0;0;0] 0 (be_bytes 32 9) (be_bytes 32 (order_secp256k1 - 4)) true 1 in
  hashes_ok C /\ exists ch, gen_private C k 5 = Ok ch /\ key ch = repeat 0 16 ++ [1] /\ length (key ch) = 17%nat.
Proof.
  cbv zeta. split.
  - apply toy_hashes. intros k m. unfold const_hmac. split; [apply is_bytes_app; split; apply be_bytes_is_bytes|reflexivity].
  - eexists. split; [vm_compute; reflexivity|]. split; reflexivity.
Qed.
Print Assumptions public_child_of_private_key.
Print Assumptions public_derivation_commutes.
Print Assumptions watch_only_chain.
Print Assumptions public_derivation_commutes_pasta.
Print Assumptions keys_25519_are_full_length.
Print Assumptions public_derivation_commutes_25519.
Print Assumptions coin_root_matches_private_keys.
Print Assumptions public_history_stays_public.
Print Assumptions private_chain_depth.
Print Assumptions public_chain_depth.
Print Assumptions private_child_scalar_and_length.
Print Assumptions private_child_full_length_iff.
