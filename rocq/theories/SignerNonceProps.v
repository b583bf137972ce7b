(** C59: the nonce of the deterministic signers, and what happens when it is rejected. *)
From Coq Require Import String ZArith List Bool Lia ZifyBool ZifyNat.
From Verif Require Import Go GoFacts GoFacts2 PadLoop SigModel Uvarint SigNormProps SignerModel SignerProps.
Import ListNotations.
Open Scope Z_scope.
Ltac Zify.zify_post_hook ::= idtac.

Lemma go_copy_full (dst src : bytes) : length dst = length src -> go_copy dst src = src.
Proof. intros L. unfold go_copy. rewrite L, firstn_all, skipn_all2 by lia. apply app_nil_r. Qed.
Lemma zeros_len n : length (zeros n) = n.
Proof. apply repeat_length. Qed.
Lemma seed_eq (key msg : bytes) : (32 <= length key)%nat -> length msg = 32%nat ->
  go_copy (zeros 64) (go_copy (zeros 32) key ++ go_copy (zeros 32) msg ++ zeros 48) = firstn 32 key ++ msg.
Proof.
  intros K M. rewrite (go_copy_full (zeros 32) msg) by (rewrite zeros_len; lia).
  unfold go_copy at 2. rewrite zeros_len. rewrite (skipn_all2 (zeros 32)) by (rewrite zeros_len; lia). rewrite app_nil_r.
  unfold go_copy. rewrite zeros_len, skipn_all2 by (rewrite !app_length, !zeros_len, firstn_length; lia). rewrite app_nil_r.
  rewrite app_assoc, firstn_app. rewrite firstn_all2 by (rewrite app_length, firstn_length; lia).
  replace (64 - length (firstn 32 key ++ msg))%nat with O by (rewrite app_length, firstn_length; lia). apply app_nil_r.
Qed.

Section Nonce.
Variable hmac : bytes -> bytes -> bytes.
Hypothesis HM : hmac_ok hmac.
Lemma hlen k d : length (hmac k d) = 32%nat. Proof. apply HM. Qed.
Lemma init_eq (key msg : bytes) : (32 <= length key)%nat -> length msg = 32%nat ->
  rfc_init hmac (go_copy (zeros 32) key ++ go_copy (zeros 32) msg ++ zeros 48) 64
  = fst (rfc_seeded hmac (firstn 32 key ++ msg)) ++ snd (rfc_seeded hmac (firstn 32 key ++ msg)).
Proof.
  intros K M. unfold rfc_init. rewrite seed_eq by assumption. rewrite (go_copy_full (zeros 32) (repeat 1 32)) by reflexivity.
  change (repeat 0 32) with (zeros 32). cbv zeta. unfold rfc_seeded. cbn [fst snd].
  rewrite (go_copy_full (repeat 1 32)) by (rewrite hlen; reflexivity).
  rewrite !(go_copy_full (zeros 32)) by (rewrite hlen; reflexivity). reflexivity.
Qed.
Lemma concat_repeat_len (t : bytes) n : length t = 32%nat -> zlen (concat (repeat t n)) = 32 * Z.of_nat n.
Proof. intros L. induction n as [|n IH]; [reflexivity|]. cbn [repeat concat]. rewrite zlen_app, IH. unfold zlen. lia. Qed.
Lemma loop_eq K V : length K = 32%nat -> length V = 32%nat -> forall n i, (Z.of_nat i + Z.of_nat n) * 32 < 2 ^ 32 ->
  nonce_loop hmac (K ++ V) false n (Z.of_nat i) (concat (repeat (hmac K V) i) ++ zeros (32 * n)) = Ok (concat (repeat (hmac K V) (i + n))).
Proof.
  intros LK LV. induction n as [|n IH]; intros i B.
  - cbn [nonce_loop]. rewrite Nat.mul_0_r, Nat.add_0_r. unfold zeros. cbn [repeat]. rewrite app_nil_r. reflexivity.
  - cbn [nonce_loop]. rewrite slice_pre by (unfold zlen; lia). cbn [bind]. rewrite slice_from_post by (unfold zlen; lia). cbn [bind].
    unfold rfc_generate. cbv iota zeta beta. rewrite (go_copy_full (zeros 32)) by (rewrite hlen; reflexivity).
    unfold u32. rewrite !Z.mod_small by lia.
    replace (zeros (32 * S n)) with (zeros 32 ++ zeros (32 * n)) by (unfold zeros; rewrite <- repeat_app; f_equal; lia).
    pose proof (concat_repeat_len (hmac K V) i (hlen K V)) as C.
    rewrite slice_pre by lia. cbn [bind].
    rewrite slice_mid by (rewrite ?zlen_zeros; lia). cbn [bind].
    rewrite app_assoc. rewrite slice_from_post by (rewrite zlen_app, zlen_zeros; lia). cbn [bind].
    rewrite (go_copy_full (zeros 32)) by (rewrite hlen; reflexivity).
    replace (Z.of_nat i + 1) with (Z.of_nat (S i)) by lia. rewrite app_assoc.
    replace (concat (repeat (hmac K V) i) ++ hmac K V) with (concat (repeat (hmac K V) (S i))).
    + rewrite IH by lia. do 3 f_equal. lia.
    + replace (S i) with (i + 1)%nat by lia. rewrite repeat_app, concat_app. cbn [repeat concat]. rewrite app_nil_r. reflexivity.
Qed.
End Nonce.

(** ** C59 *)
(** The buffer for counter c: c+1 copies of the first RFC 6979 candidate for the first 32 bytes of the key and the
    message hash - the second candidate is never computed. At counter 2^27-1 the 32-bit length wraps to 0 and the
    function panics. *)
Theorem nonce_is_first_candidate_repeated : forall hmac msg key c, hmac_ok hmac -> (32 <= length key)%nat -> length msg = 32%nat ->
  (0 <= c < 2 ^ 27 - 1 -> nonce_fn hmac msg key c = Ok (concat (repeat (rfc_first hmac (firstn 32 key) msg) (Z.to_nat (c + 1))))) /\
  (c = 2 ^ 27 - 1 -> nonce_fn hmac msg key c = Panic).
Proof.
  intros hmac msg key c HM K M. unfold nonce_fn. rewrite init_eq by assumption. cbv zeta.
  assert (L1 : length (fst (rfc_seeded hmac (firstn 32 key ++ msg))) = 32%nat) by (unfold rfc_seeded; cbn [fst]; apply HM).
  assert (L2 : length (snd (rfc_seeded hmac (firstn 32 key ++ msg))) = 32%nat) by (unfold rfc_seeded; cbn [snd]; apply HM).
  split; intros C.
  - unfold u32. rewrite Z.mod_small by lia. replace (Z.to_nat ((c + 1) * 32)) with (32 * Z.to_nat (c + 1))%nat by lia.
    exact (loop_eq hmac HM _ _ L1 L2 (Z.to_nat (c + 1)) 0 ltac:(lia)).
  - destruct (Z.to_nat (c + 1)) as [|n] eqn:En; [lia|]. replace ((c + 1) * 32) with (2 ^ 32) by lia.
    change (Z.to_nat (u32 (2 ^ 32))) with O. cbn [nonce_loop]. rewrite slice_pre by (unfold zlen; lia). cbn [bind]. rewrite slice_from_post by (unfold zlen; lia). cbn [bind].
    reflexivity.
Qed.

Lemma first_copy (t : bytes) n : length t = 32%nat -> (0 < n)%nat -> firstn 32 (concat (repeat t n)) = t.
Proof. intros L N. destruct n as [|n]; [lia|]. cbn [repeat concat]. rewrite firstn_app, L, firstn_all2 by lia. cbn [Nat.sub firstn]. apply app_nil_r. Qed.
Lemma concat_repeat_bytes (t : bytes) n : is_bytes t -> is_bytes (concat (repeat t n)).
Proof. intros B. induction n as [|n IH]; [constructor|]. cbn [repeat concat]. apply is_bytes_app. tauto. Qed.
Lemma rfc_first_ok hmac key msg : hmac_ok hmac -> is_bytes (rfc_first hmac key msg) /\ length (rfc_first hmac key msg) = 32%nat.
Proof. intros HM. apply HM. Qed.

(** The oracles refuse a nonce: not a usable scalar, or no success for any buffer that begins with it. *)
Definition refused (pre : bytes -> Z) (ecc_sign : bytes -> bytes -> bytes -> bytes * Z) (gen_pub : bytes -> bytes * Z) (success : Z) (key hash nonce : bytes) : Prop :=
  scalar_ok (be_num nonce) = false \/
  forall buf, firstn 32 buf = nonce -> pre buf <> success \/ snd (ecc_sign key hash buf) <> success \/ snd (gen_pub buf) <> success.
Lemma inner_fails pre ecc_sign gen_pub success key hash buf :
  pre buf <> success \/ snd (ecc_sign key hash buf) <> success \/ snd (gen_pub buf) <> success ->
  exists ret, ret <> success /\ sign_inner pre ecc_sign gen_pub success key hash buf = Ok ([], ret).
Proof.
  intros H. unfold sign_inner. destruct (Z.eqb_spec (pre buf) success) as [E|E]; cbn [negb]; [|eauto].
  destruct (ecc_sign key hash buf) as [sig ret]. cbn [snd] in H. destruct (Z.eqb_spec ret success) as [E2|E2]; cbn [negb]; [|eauto].
  destruct (gen_pub buf) as [y ret1]. cbn [snd] in H. destruct (Z.eqb_spec ret1 success) as [E3|E3]; cbn [negb]; [|eauto].
  exfalso. tauto.
Qed.
Lemma refused_loop hmac pre ecc_sign gen_pub success key hash : hmac_ok hmac -> (32 <= length key)%nat -> length hash = 32%nat ->
  refused pre ecc_sign gen_pub success key hash (rfc_first hmac (firstn 32 key) hash) ->
  forall fuel c, 0 <= c <= 2 ^ 27 - 1 ->
  sign_loop hmac pre ecc_sign gen_pub success fuel key hash c = if Z.of_nat fuel + c <? 2 ^ 27 then None else Some Panic.
Proof.
  intros HM K H R. induction fuel as [|fuel IH]; intros c C.
  - cbn [sign_loop]. replace (Z.of_nat 0 + c <? 2 ^ 27) with true by lia. reflexivity.
  - cbn [sign_loop]. destruct (nonce_is_first_candidate_repeated hmac hash key c HM K H) as [N1 N2].
    destruct (Z.eq_dec c (2 ^ 27 - 1)) as [E|E].
    + rewrite N2 by exact E. cbn [bind]. replace (Z.of_nat (S fuel) + c <? 2 ^ 27) with false by lia. reflexivity.
    + rewrite N1 by lia. cbn [bind]. clear N1 N2. destruct (rfc_first_ok hmac (firstn 32 key) hash HM) as [Bt Lt].
      set (t := rfc_first hmac (firstn 32 key) hash) in *. clearbody t. set (buf := concat (repeat t (Z.to_nat (c + 1)))).
      assert (F : firstn 32 buf = t) by (apply first_copy; [exact Lt|lia]).
      assert (Lb : (32 <= length buf)%nat) by (rewrite <- F, firstn_length in Lt; lia).
      assert (Bb : is_bytes buf) by (apply concat_repeat_bytes; exact Bt).
      destruct (scalar_checks_exact buf Bb Lb) as (_ & O & Zr). rewrite O, Zr, F. cbn [bind].
      assert (Next : sign_loop hmac pre ecc_sign gen_pub success fuel key hash (u32 (c + 1)) = if Z.of_nat (S fuel) + c <? 2 ^ 27 then None else Some Panic).
      { unfold u32. rewrite Z.mod_small by lia. rewrite IH by lia. replace (Z.of_nat fuel + (c + 1)) with (Z.of_nat (S fuel) + c) by lia. reflexivity. }
      destruct R as [R|R].
      * unfold scalar_ok in R. pose proof (be_num_bound t Bt) as P. replace (negb (secp_order <=? be_num t) && negb (be_num t =? 0)) with false by lia. cbn [bind]. exact Next.
      * destruct (inner_fails pre ecc_sign gen_pub success key hash buf (R buf F)) as (ret & NR & E1).
        destruct (_ && _); [|cbn [bind]; exact Next]. rewrite E1. cbn [bind]. apply Z.eqb_neq in NR. rewrite NR. exact Next.
Qed.

(** When the first candidate is refused, no number of rounds produces a signature: the signer runs through 2^27 rounds
    with the same nonce and then panics. *)
Theorem refused_nonce_never_signs : forall hmac pre ecc_sign gen_pub success failure key hash fuel,
  hmac_ok hmac -> is_bytes key -> (32 <= length key)%nat -> scalar_ok (be_num (firstn 32 key)) = true -> length hash = 32%nat ->
  refused pre ecc_sign gen_pub success key hash (rfc_first hmac (firstn 32 key) hash) ->
  det_signature hmac pre ecc_sign gen_pub success failure fuel key hash = if Z.of_nat fuel <? 2 ^ 27 then None else Some Panic.
Proof.
  intros hmac pre ecc_sign gen_pub success failure key hash fuel HM B K S H R. unfold det_signature.
  replace (zlen hash =? 32) with true by (unfold zlen; lia). cbn [negb].
  destruct (scalar_checks_exact key B K) as (O & _ & Zr). rewrite O, Zr. cbn [bind]. unfold scalar_ok in S.
  replace (negb (secp_order <=? be_num (firstn 32 key)) && negb (be_num (firstn 32 key) =? 0)) with true by lia.
  rewrite (refused_loop hmac pre ecc_sign gen_pub success key hash HM K H R fuel 0) by lia. rewrite Z.add_0_r. reflexivity.
Qed.

(** Arguments that are not signed: a hash of another length gives (nil, failure); a key of fewer than 32 bytes panics;
    a key that is zero or not below the order gives 65 zero bytes with status 0. *)
Theorem signer_bad_arguments : forall hmac pre ecc_sign gen_pub success failure fuel key hash,
  let run := det_signature hmac pre ecc_sign gen_pub success failure fuel key hash in
  (length hash <> 32%nat -> run = Some (Ok ([], failure))) /\
  (length hash = 32%nat -> (length key < 32)%nat -> run = Some Panic) /\
  (length hash = 32%nat -> is_bytes key -> (32 <= length key)%nat -> scalar_ok (be_num (firstn 32 key)) = false -> run = Some (Ok (repeat 0 65, 0))).
Proof.
  intros hmac pre ecc_sign gen_pub success failure fuel key hash. cbv zeta. unfold det_signature. split; [|split].
  - intros H. replace (zlen hash =? 32) with false by (unfold zlen; lia). reflexivity.
  - intros H K. replace (zlen hash =? 32) with true by (unfold zlen; lia). cbn [negb].
    destruct (scalar_checks_panic key K) as (-> & _ & _). reflexivity.
  - intros H B K S. replace (zlen hash =? 32) with true by (unfold zlen; lia). cbn [negb].
    destruct (scalar_checks_exact key B K) as (O & _ & Zr). rewrite O, Zr. cbn [bind]. unfold scalar_ok in S.
    assert (0 <= be_num (firstn 32 key)) by (apply be_num_bound; destruct (cut 32 key B K) as (w & r & -> & Bw & _ & Lw & _); rewrite firstn_app, Lw, firstn_all2 by lia; cbn [Nat.sub firstn]; rewrite app_nil_r; exact Bw).
    replace (negb (secp_order <=? be_num (firstn 32 key)) && negb (be_num (firstn 32 key) =? 0)) with false by lia. reflexivity.
Qed.

Lemma half_eq : be_num order_bytes / 2 = secp_half.
Proof. vm_compute. reflexivity. Qed.
Lemma copy_pad (s : bytes) m : is_bytes s -> length s = 32%nat -> 0 < m -> m <= secp_half ->
  let s' := go_copy s (pad32_buggy (big_bytes m)) in
  is_bytes s' /\ length s' = 32%nat /\
  (2 ^ 240 <= m -> be_num s' = m) /\ (m < 2 ^ 240 -> be_num s' <> m /\ be_num s' < 2 ^ 248).
Proof.
  intros B L M0 M1. cbv zeta.
  pose proof (big_nbytes m ltac:(lia)) as N. pose proof (big_bytes_bytes m) as Bm.
  assert (M2 : m < 256 ^ 32) by (eapply Z.le_lt_trans; [exact M1|]; vm_compute; reflexivity).
  assert (L32 : 1 <= zlen (big_bytes m) <= 32).
  { destruct N as [[N1 N2]|[N1 N2]]; [lia|]. split; [lia|]. destruct (Z.leb_spec (zlen (big_bytes m)) 32); [assumption|].
    exfalso. assert (256 ^ 32 <= 256 ^ (zlen (big_bytes m) - 1)) by (apply Z.pow_le_mono_r; lia). lia. }
  assert (Q : 31 <= zlen (big_bytes m) <-> 2 ^ 240 <= m).
  { change (2 ^ 240) with (256 ^ 30). destruct N as [[N1 N2]|[N1 N2]]; [lia|]. split; intros Q.
    - assert (256 ^ 30 <= 256 ^ (zlen (big_bytes m) - 1)) by (apply Z.pow_le_mono_r; lia). lia.
    - destruct (Z.leb_spec 31 (zlen (big_bytes m))); [assumption|]. assert (256 ^ zlen (big_bytes m) <= 256 ^ 30) by (apply Z.pow_le_mono_r; lia). lia. }
  set (p := pad32_buggy (big_bytes m)) in *.
  assert (Bp : is_bytes p) by (apply pad32_bytes; exact Bm).
  assert (Np : be_num p = m) by (unfold p; rewrite pad32_num, big_bytes_num; lia).
  assert (Lp : (length p <= 32)%nat).
  { destruct (Z.leb_spec 31 (zlen (big_bytes m))) as [G|G]; [unfold p; rewrite pad32_full by lia; lia|]. pose proof (pad32_short (big_bytes m) ltac:(lia)) as P. fold p in P. unfold zlen in P. lia. }
  assert (E : go_copy s p = p ++ skipn (length p) s) by (unfold go_copy; rewrite L, firstn_all2 by lia; reflexivity).
  assert (Bs' : is_bytes (skipn (length p) s)) by (destruct (cut (length p) s B ltac:(lia)) as (w & r & -> & _ & Br & Lw & _); rewrite skipn_app, Lw, skipn_all2, Nat.sub_diag by lia; exact Br).
  rewrite E. split; [apply is_bytes_app; tauto|]. split; [rewrite app_length, skipn_length; lia|]. split.
  - intros G. apply Q in G. rewrite skipn_all2 by (pose proof (pad32_full (big_bytes m) ltac:(lia)) as P; fold p in P; lia). rewrite app_nil_r. exact Np.
  - intros G. assert (S : zlen (big_bytes m) <= 30) by (destruct (Z.leb_spec 31 (zlen (big_bytes m))); [apply Q in H; lia|lia]).
    pose proof (pad32_short (big_bytes m) S) as P. fold p in P.
    rewrite be_num_app, Np. pose proof (be_num_bound _ Bs') as R.
    assert (Lt : zlen (skipn (length p) s) = 32 - zlen p) by (unfold zlen; rewrite skipn_length; lia). rewrite Lt in *.
    split.
    + assert (256 ^ 1 <= 256 ^ (32 - zlen p)) by (apply Z.pow_le_mono_r; lia). nia.
    + assert (T : exists u, p = 0 :: u).
      { unfold p. rewrite pad32_buggy_eq. assert (1 <= (33 - zlen (big_bytes m)) / 2) by (apply Z.div_le_lower_bound; lia).
        destruct (Z.to_nat ((33 - zlen (big_bytes m)) / 2)) as [|k] eqn:Ek; [lia|]. unfold zeros. cbn [repeat app]. eexists. reflexivity. }
      destruct T as [u Eu]. rewrite Eu in Np, P. rewrite be_num_cons in Np. rewrite zlen_cons in P. rewrite Eu, zlen_cons in R. rewrite Eu, zlen_cons.
      assert (Bu : is_bytes u) by (rewrite Eu in Bp; inversion Bp; assumption). pose proof (be_num_bound u Bu) as Ru.
      assert (X : 256 ^ zlen u * 256 ^ (32 - (1 + zlen u)) = 2 ^ 248) by (pose proof (zlen_nonneg u); rewrite <- Z.pow_add_r by lia; replace (zlen u + (32 - (1 + zlen u))) with 31 by lia; reflexivity).
      assert (W : 0 < 256 ^ (32 - (1 + zlen u))) by (apply Z.pow_pos_nonneg; lia).
      assert ((m + 1) * 256 ^ (32 - (1 + zlen u)) <= 256 ^ zlen u * 256 ^ (32 - (1 + zlen u))) by (apply Z.mul_le_mono_nonneg_r; lia). lia.
Qed.

(** When the first candidate is usable and the oracles succeed on it, one round suffices, and the result is
    r || s' || v with status success, where for s the value computed by the oracle (0 < s < order):
    - s at most half the order: s' = s, v = parity of the ordinate of the nonce point;
    - otherwise v is the opposite parity and s' has 32 bytes; s' = order - s when order - s >= 2^240 (at least 31
      bytes); for smaller order - s, s' is neither s nor order - s, so the signature is not valid. *)
Theorem signer_result : forall hmac pre ecc_sign gen_pub success failure key hash fuel r s y,
  hmac_ok hmac -> is_bytes key -> (32 <= length key)%nat -> scalar_ok (be_num (firstn 32 key)) = true -> length hash = 32%nat ->
  let nonce := rfc_first hmac (firstn 32 key) hash in
  scalar_ok (be_num nonce) = true -> pre nonce = success -> ecc_sign key hash nonce = (r ++ s, success) ->
  gen_pub nonce = (y, success) -> length r = 32%nat -> length s = 32%nat -> is_bytes s -> length y = 64%nat -> is_bytes y ->
  0 < be_num s < secp_order ->
  exists s' v, det_signature hmac pre ecc_sign gen_pub success failure (S fuel) key hash = Some (Ok (r ++ s' ++ [v], success)) /\
    length s' = 32%nat /\ is_bytes s' /\
    (2 * be_num s < secp_order -> s' = s /\ v = be_num y mod 2) /\
    (secp_order < 2 * be_num s -> v = 1 - be_num y mod 2) /\
    (secp_order < 2 * be_num s -> be_num s <= secp_order - 2 ^ 240 -> be_num s' = secp_order - be_num s) /\
    (secp_order - 2 ^ 240 < be_num s -> be_num s' <> be_num s /\ be_num s' <> secp_order - be_num s).
Proof.
  intros hmac pre ecc_sign gen_pub success failure key hash fuel r s y HM B K Sk H nonce Sn P E G Lr Ls Bs Ly By R.
  assert (Last : exists y0 c, y = y0 ++ [c] /\ length y0 = 63%nat /\ is_byte c).
  { destruct (exists_last (l := y)) as (y0 & c & ->); [intros ->; discriminate Ly|]. exists y0, c. rewrite app_length in Ly. cbn [length] in Ly.
    split; [reflexivity|]. split; [lia|]. apply is_bytes_app in By. destruct By as [_ By]. inversion By. assumption. }
  destruct Last as (y0 & c & -> & Ly0 & Bc).
  assert (Yp : be_num (y0 ++ [c]) mod 2 = c mod 2).
  { rewrite be_num_snoc. replace (be_num y0 * 256 + c) with (c + (be_num y0 * 128) * 2) by ring. apply Z.mod_add. lia. }
  rewrite Yp. clear Yp By Ly.
  assert (Ys : idx (y0 ++ [c]) 63 = Ok c) by (apply idx_mid; unfold zlen; lia).
  unfold det_signature. replace (zlen hash =? 32) with true by (unfold zlen; lia). cbn [negb].
  destruct (scalar_checks_exact key B K) as (O & _ & Zr). rewrite O, Zr. cbn [bind]. unfold scalar_ok in Sk.
  replace (negb (secp_order <=? be_num (firstn 32 key)) && negb (be_num (firstn 32 key) =? 0)) with true by lia.
  cbn [sign_loop]. destruct (nonce_is_first_candidate_repeated hmac hash key 0 HM K H) as [N1 _]. rewrite N1 by lia.
  change (Z.to_nat (0 + 1)) with 1%nat. cbn [repeat concat]. rewrite app_nil_r. fold nonce. cbn [bind].
  destruct (rfc_first_ok hmac (firstn 32 key) hash HM) as [Bt Lt]. fold nonce in Bt, Lt. clearbody nonce.
  destruct (scalar_checks_exact nonce Bt ltac:(lia)) as (_ & On & Zn). rewrite On, Zn, firstn_all2 by lia. cbn [bind]. unfold scalar_ok in Sn.
  replace (negb (secp_order <=? be_num nonce) && negb (be_num nonce =? 0)) with true by lia.
  unfold sign_inner. rewrite P, Z.eqb_refl, E, Z.eqb_refl, G, Z.eqb_refl, Ys. cbn [negb bind].
  rewrite slice_pre by (unfold zlen; lia). cbn [bind]. rewrite slice_post by (rewrite ?zlen_app; unfold zlen; lia). cbn [bind].
  rewrite half_eq, order_num.
  assert (F : secp_order = 2 * secp_half + 1) by reflexivity.
  assert (Cm : (if c mod 2 =? 1 then 1 else 0) = c mod 2) by (pose proof (Z.mod_pos_bound c 2 ltac:(lia)); destruct (Z.eqb_spec (c mod 2) 1); lia). rewrite Cm.
  assert (T240 : 2 ^ 240 < secp_half) by reflexivity.
  destruct (Z.ltb_spec secp_half (be_num s)) as [Hi|Lo].
  - cbn [bind]. rewrite Z.eqb_refl. destruct (copy_pad s (secp_order - be_num s) Bs Ls ltac:(lia) ltac:(lia)) as (C1 & C2 & C3 & C4).
    eexists _, _. split; [reflexivity|]. split; [exact C2|]. split; [exact C1|]. split; [intros; lia|]. split; [|split].
    + intros _. pose proof (Z.mod_pos_bound c 2 ltac:(lia)). assert (c mod 2 = 0 \/ c mod 2 = 1) as [-> | ->] by lia; reflexivity.
    + intros _ W. apply C3. lia.
    + intros W. destruct (C4 ltac:(lia)) as [D1 D2]. split; [|exact D1]. assert (2 ^ 248 < secp_half) by reflexivity. lia.
  - cbn [bind]. rewrite Z.eqb_refl. exists s, (c mod 2). split; [reflexivity|]. split; [exact Ls|]. split; [exact Bs|]. split; [auto|]. split; [intros; lia|]. split; intros; lia.
Qed.

(** ** Examples *)
(** A toy HMAC (32 bytes, always the number 5 plus the number of data bytes) and oracles that succeed. *)
Definition ex_hmac (k d : bytes) : bytes := be_bytes 32 (5 + zlen d mod 7).
Definition ex_key : bytes := be_bytes 32 77.
Definition ex_msg : bytes := be_bytes 32 99.
Example ex_hmac_ok : hmac_ok ex_hmac.
Proof. intros k d. split; [apply be_bytes_is_bytes|apply be_bytes_length]. Qed.
Example ex_key_ok : is_bytes ex_key /\ (32 <= length ex_key)%nat /\ scalar_ok (be_num (firstn 32 ex_key)) = true /\ length ex_msg = 32%nat /\
  scalar_ok (be_num (rfc_first ex_hmac (firstn 32 ex_key) ex_msg)) = true.
Proof. split; [apply be_bytes_is_bytes|]. split; [unfold ex_key; rewrite be_bytes_length; lia|]. split; [vm_compute; reflexivity|]. split; [apply be_bytes_length|]. vm_compute. reflexivity. Qed.
(** A signer that always returns r = 3, s = order - 9 for that nonce: the conclusion of [signer_result] holds with a wrong s'. *)
Example ex_signed : exists s' v,
  det_signature ex_hmac (fun _ => 1) (fun _ _ _ => (be_bytes 32 3 ++ be_bytes 32 (secp_order - 9), 1)) (fun _ => (be_bytes 64 4, 1)) 1 0 1 ex_key ex_msg
  = Some (Ok (be_bytes 32 3 ++ s' ++ [v], 1)) /\ be_num s' <> 9 /\ v = 1.
Proof.
  destruct ex_key_ok as (A1 & A2 & A3 & A4 & A5).
  destruct (signer_result ex_hmac (fun _ => 1) (fun _ _ _ => (be_bytes 32 3 ++ be_bytes 32 (secp_order - 9), 1)) (fun _ => (be_bytes 64 4, 1)) 1 0 ex_key ex_msg 0
    (be_bytes 32 3) (be_bytes 32 (secp_order - 9)) (be_bytes 64 4) ex_hmac_ok A1 A2 A3 A4 A5 eq_refl eq_refl eq_refl) as (s' & v & D & _ & _ & _ & V & _ & W).
  - apply be_bytes_length.
  - apply be_bytes_length.
  - apply be_bytes_is_bytes.
  - apply be_bytes_length.
  - apply be_bytes_is_bytes.
  - rewrite be_num_be_bytes. vm_compute. split; reflexivity.
  - exists s', v. split; [exact D|]. assert (N : be_num (be_bytes 32 (secp_order - 9)) = secp_order - 9) by (rewrite be_num_be_bytes; vm_compute; reflexivity).
    rewrite N in *. split; [|rewrite V by (vm_compute; reflexivity); rewrite be_num_be_bytes; vm_compute; reflexivity].
    destruct W as [_ W]; [vm_compute; reflexivity|]. replace (secp_order - (secp_order - 9)) with 9 in W by ring. exact W.
Qed.
(** An HMAC of all zero bytes: the candidate is 0, and 1000 rounds give nothing. *)
Example ex_refused : det_signature (fun _ _ => zeros 32) (fun _ => 1) (fun _ _ _ => ([], 1)) (fun _ => ([], 1)) 1 0 1000 ex_key ex_msg = None.
Proof.
  destruct ex_key_ok as (A1 & A2 & A3 & A4 & _).
  rewrite (refused_nonce_never_signs (fun _ _ => zeros 32) (fun _ => 1) (fun _ _ _ => ([], 1)) (fun _ => ([], 1)) 1 0 ex_key ex_msg 1000).
  - reflexivity.
  - intros k d. split; [apply is_bytes_zeros|apply repeat_length].
  - exact A1.
  - exact A2.
  - exact A3.
  - exact A4.
  - left. reflexivity.
Qed.

Print Assumptions scalar_checks_exact.
Print Assumptions scalar_checks_panic.
Print Assumptions nonce_is_first_candidate_repeated.
Print Assumptions refused_nonce_never_signs.
Print Assumptions signer_bad_arguments.
Print Assumptions signer_result.
