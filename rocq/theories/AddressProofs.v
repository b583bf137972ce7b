(** Lemmas about the base58 branch of AddressEncode / AddressDecode. *)
From Coq Require Import String ZArith List Bool Lia ZifyBool ZifyNat.
From Verif Require Import Go GoFacts Base58Model Base58Spec Base58Proofs Base58Props Base58CheckModel Base58CheckSpec Base58CheckProofs AddressModel AddressSpec.
Import ListNotations.
Open Scope Z_scope.
Ltac Zify.zify_post_hook ::= idtac.

(** ** base58 numerals are unique *)
Lemma positional_bval base ds : positional base ds = bval base ds.
Proof.
  unfold positional. induction ds as [|d ds IH] using rev_ind; [reflexivity|].
  rewrite fold_left_app, IH, bval_snoc. cbn [fold_left]. ring.
Qed.
Lemma zero_split n m (a b : list Z) : hd 1 a <> 0 -> hd 1 b <> 0 -> repeat 0 n ++ a = repeat 0 m ++ b -> n = m /\ a = b.
Proof.
  intros Ha Hb. revert m. induction n as [|n IH]; intros [|m] E; cbn [repeat app] in E.
  - auto.
  - subst a. cbn in Ha. contradiction.
  - subst b. cbn in Hb. contradiction.
  - injection E as E. apply IH in E as [-> ->]. auto.
Qed.
Lemma base58_of_unique rs b s s' : is_base58_of rs b s -> is_base58_of rs b s' -> s = s'.
Proof.
  intros (n & r & ds & B & Hr & D & Hd & P & ->) (n' & r' & ds' & B' & Hr' & D' & Hd' & P' & ->).
  rewrite B in B'. apply zero_split in B' as [<- <-]; try assumption.
  rewrite <- P, !positional_bval in P'. f_equal. f_equal. symmetry. apply bval_unique; assumption.
Qed.

Section S.
Variable H : alg -> bytes -> bytes.
Hypothesis HH : hashes_ok H.

Lemma rule_hash_ok name f : checksum_rule H name f -> hash_ok f.
Proof.
  intros R d Hd. destruct R; try (destruct (HH DoubleSha256 d Hd), (HH DoubleBlake256 d Hd), (HH Keccak256 d Hd), (HH Sha3_256 d Hd), (HH Ripemd160 d Hd); cbn [digest_len] in *; split; [assumption|lia]).
  destruct (HH Blake2b_32 d Hd) as [B _]. destruct (HH Keccak256 _ B). cbn [digest_len] in *; split; [assumption|lia].
Qed.
Lemma calc_rule name f d : checksum_rule H name f -> is_bytes d -> calc_checksum_of H d name = Ok (firstn 4 (f d)).
Proof.
  intros R Hd. pose proof (rule_hash_ok _ _ R) as Hf. rewrite <- (cks_slice f Hf d Hd). destruct R; reflexivity.
Qed.
Lemma checksum_loop_eq body c t : zlen c = 4 -> zlen t = 4 -> checksum_loop [0; 1; 2; 3] c (body ++ t) = Ok (beq c t).
Proof.
  intros Lc Lt.
  destruct c as [|c0 [|c1 [|c2 [|c3 [|]]]]]; try (exfalso; rewrite ?zlen_cons in Lc; change (zlen (@nil Z)) with 0 in Lc; try pose proof (zlen_nonneg l); lia).
  destruct t as [|t0 [|t1 [|t2 [|t3 [|]]]]]; try (exfalso; rewrite ?zlen_cons in Lt; change (zlen (@nil Z)) with 0 in Lt; try pose proof (zlen_nonneg l); lia).
  cbn [checksum_loop]. rewrite zlen_app. rewrite Lt.
  change (idx [c0; c1; c2; c3] 0) with (Ok c0). change (idx [c0; c1; c2; c3] 1) with (Ok c1).
  change (idx [c0; c1; c2; c3] 2) with (Ok c2). change (idx [c0; c1; c2; c3] 3) with (Ok c3). cbn [bind].
  rewrite (idx_mid body t0 [t1; t2; t3]) by lia. cbn [bind beq]. destruct (c0 =? t0); cbn [andb]; [|reflexivity].
  replace (body ++ [t0; t1; t2; t3]) with ((body ++ [t0]) ++ t1 :: [t2; t3]) by (rewrite <- app_assoc; reflexivity).
  rewrite (idx_mid (body ++ [t0]) t1) by (rewrite zlen_app; change (zlen [t0]) with 1; lia). cbn [bind]. destruct (c1 =? t1); cbn [andb]; [|reflexivity].
  replace ((body ++ [t0]) ++ t1 :: [t2; t3]) with ((body ++ [t0; t1]) ++ t2 :: [t3]) by (rewrite <- !app_assoc; reflexivity).
  rewrite (idx_mid (body ++ [t0; t1]) t2) by (rewrite zlen_app; change (zlen [t0; t1]) with 2; lia). cbn [bind]. destruct (c2 =? t2); cbn [andb]; [|reflexivity].
  replace ((body ++ [t0; t1]) ++ t2 :: [t3]) with ((body ++ [t0; t1; t2]) ++ t3 :: []) by (rewrite <- !app_assoc; reflexivity).
  rewrite (idx_mid (body ++ [t0; t1; t2]) t3) by (rewrite zlen_app; change (zlen [t0; t1; t2]) with 3; lia). cbn [bind].
  destruct (c3 =? t3); reflexivity.
Qed.
Lemma split4 (r : bytes) : 4 <= zlen r -> exists b t, r = b ++ t /\ zlen t = 4 /\ zlen b = zlen r - 4.
Proof.
  intros L. exists (firstn (length r - 4) r), (skipn (length r - 4) r). split; [symmetry; apply firstn_skipn|].
  unfold zlen in *. rewrite skipn_length, firstn_length. lia.
Qed.
(** The common checksum test of decodeData, the XMR branch, decodeEOS and decodeAE. *)
Definition checked_body (name : list Z) (ret : bytes) : res bytes :=
  ok <- verify_checksum_of H ret name ;; if negb ok then Err else slice ret 0 (zlen ret - 4).
Lemma checked_body_spec name f r : checksum_rule H name f -> is_bytes r ->
  (exists d, is_bytes d /\ r = checked f d /\ checked_body name r = Ok d) \/
  ((forall d, is_bytes d -> r <> checked f d) /\ checked_body name r = Err).
Proof.
  intros R Hr. pose proof (rule_hash_ok _ _ R) as Hf. unfold checked_body, verify_checksum_of.
  destruct (zlen r <? 4) eqn:L.
  - right. split; [|reflexivity]. intros d Hd E. rewrite E, checked_len in L by assumption. pose proof (zlen_nonneg d). lia.
  - destruct (split4 r) as (b & t & E & Lt & Lb); [lia|]. subst r. apply is_bytes_app in Hr as [Hb Ht].
    rewrite <- Lb. rewrite slice_pre by reflexivity. cbn [bind]. rewrite (calc_rule name f) by assumption. cbn [bind].
    rewrite checksum_loop_eq; [|apply cks_len; assumption|exact Lt]. cbn [bind].
    destruct (beq (firstn 4 (f b)) t) eqn:E; cbn [negb].
    + left. apply beq_eq in E. subst t. exists b. auto.
    + right. split; [|reflexivity]. intros d Hd K. apply beq_neq in E. apply E.
      assert (L2 : length b = length d).
      { apply (f_equal zlen) in K. rewrite checked_len, zlen_app in K by assumption. unfold zlen in *. lia. }
      unfold checked in K. apply (f_equal (skipn (length b))) in K as K2. apply (f_equal (firstn (length b))) in K.
      rewrite firstn_app, Nat.sub_diag, firstn_all in K. cbn [firstn] in K. rewrite app_nil_r in K.
      rewrite L2, firstn_app, Nat.sub_diag, firstn_all in K. cbn [firstn] in K. rewrite app_nil_r in K. subst d.
      rewrite !skipn_app, !skipn_all, !Nat.sub_diag in K2. cbn [app skipn] in K2. auto.
Qed.
Lemma checked_body_checked name f d : checksum_rule H name f -> is_bytes d -> checked_body name (checked f d) = Ok d.
Proof.
  intros R Hd. pose proof (rule_hash_ok _ _ R) as Hf.
  destruct (checked_body_spec name f (checked f d) R) as [(d' & Hd' & E & C)|[N _]].
  - apply checked_bytes; assumption.
  - apply (checked_inj f Hf) in E; try assumption. congruence.
  - exfalso. exact (N d Hd eq_refl).
Qed.

(** ** recover_data *)
Lemma prefix_loop_panic p : forall a r, prefix_loop p (a ++ r) (zlen a) = Panic <-> exists x q, p = r ++ x :: q.
Proof.
  induction p as [|y p IH]; intros a r; cbn [prefix_loop].
  - split; [discriminate|]. intros (x & q & E). destruct r; discriminate.
  - destruct r as [|z r].
    + rewrite app_nil_r. unfold idx. pose proof (zlen_nonneg a). replace (zlen a <? 0) with false by lia.
      replace (nth_error a (Z.to_nat (zlen a))) with (@None Z) by (symmetry; apply nth_error_None; unfold zlen; lia).
      cbn [bind]. split; [|reflexivity]. intros _. exists y, p. reflexivity.
    + rewrite idx_mid by reflexivity. cbn [bind]. destruct (y =? z) eqn:E.
      * replace (a ++ z :: r) with ((a ++ [z]) ++ r) by (rewrite <- app_assoc; reflexivity).
        replace (zlen a + 1) with (zlen (a ++ [z])) by (rewrite zlen_app; reflexivity). rewrite IH.
        assert (y = z) by lia. subst z. split; intros (x & q & Q); exists x, q; cbn [app] in *; congruence.
      * split; [discriminate|]. intros (x & q & Q). cbn [app] in Q. injection Q as Q _. lia.
Qed.
Lemma prefix_loop_neg x p d i : i < 0 -> prefix_loop (x :: p) d i = Panic.
Proof. intros L. cbn [prefix_loop]. unfold idx. replace (i <? 0) with true by lia. reflexivity. Qed.
Lemma prefix_loop0 p d : prefix_loop p d 0 = Ok tt <-> exists r, d = p ++ r.
Proof.
  split; [apply (prefix_loop_inv p [] d)|]. intros (r & ->). apply (prefix_loop_ok p [] r).
Qed.
Lemma prefix_loop0_panic p d : prefix_loop p d 0 = Panic <-> exists x q, p = d ++ x :: q.
Proof. apply (prefix_loop_panic p [] d). Qed.
Lemma suffix_loop p d : zlen p <= zlen d ->
  (prefix_loop p d (zlen d - zlen p) = Ok tt /\ exists r, d = r ++ p) \/
  (prefix_loop p d (zlen d - zlen p) = Err /\ ~ exists r, d = r ++ p).
Proof.
  intros L. set (k := (length d - length p)%nat).
  assert (E : d = firstn k d ++ skipn k d) by (symmetry; apply firstn_skipn).
  set (a := firstn k d) in *. set (r := skipn k d) in *.
  assert (La : zlen a = zlen d - zlen p) by (unfold a, k, zlen in *; rewrite firstn_length; lia).
  assert (Lr : length r = length p) by (unfold r, k, zlen in *; rewrite skipn_length; lia).
  destruct (prefix_loop p d (zlen d - zlen p)) as [[]| |] eqn:P.
  - left. split; [reflexivity|]. rewrite <- La in P. rewrite E in P at 1. apply prefix_loop_inv in P as (r' & R).
    rewrite R in Lr. rewrite app_length in Lr. destruct r'; [|cbn [length] in Lr; lia]. rewrite app_nil_r in R.
    exists a. congruence.
  - right. split; [reflexivity|]. intros (q & Q).
    assert (P2 : prefix_loop p d (zlen d - zlen p) = Ok tt).
    { rewrite Q. rewrite zlen_app. replace (zlen q + zlen p - zlen p) with (zlen q) by lia.
      rewrite <- (app_nil_r p) at 2. apply prefix_loop_ok. }
    congruence.
  - exfalso. rewrite <- La in P. rewrite E in P at 1. apply prefix_loop_panic in P as (x & q & Q).
    rewrite Q, app_length in Lr. cbn [length] in Lr. lia.
Qed.
Lemma recover_framed p h s : recover_data (p ++ h ++ s) p s = Ok h.
Proof.
  unfold recover_data. assert (E : prefix_loop p (p ++ h ++ s) 0 = Ok tt) by (apply (prefix_loop_ok p [] (h ++ s))).
  rewrite E. cbn [bind].
  rewrite !zlen_app. replace (zlen p + (zlen h + zlen s) - zlen s) with (zlen (p ++ h)) by (rewrite zlen_app; lia).
  replace (p ++ h ++ s) with ((p ++ h) ++ s ++ []) at 1 by (rewrite app_nil_r, app_assoc; reflexivity).
  rewrite prefix_loop_ok. cbn [bind]. rewrite zlen_app. apply slice_mid; lia.
Qed.
(** The body of an address is shorter than the prefix and agrees with it, or too short for both. *)
Definition recover_short (p s d : bytes) : Prop :=
  (exists x q, p = d ++ x :: q) \/
  ((exists r, d = p ++ r) /\ zlen d < zlen s) \/
  ((exists r, d = p ++ r) /\ (exists q, d = q ++ s) /\ zlen d < zlen p + zlen s).
Lemma recover_spec d p s :
  match recover_data d p s with
  | Ok h => d = p ++ h ++ s
  | Err => ~ recover_short p s d /\ (forall h, d <> p ++ h ++ s)
  | Panic => recover_short p s d
  end.
Proof.
  unfold recover_data. pose proof (prefix_loop0 p d) as P1. pose proof (prefix_loop0_panic p d) as P2.
  destruct (prefix_loop p d 0) as [[]| |] eqn:E1; cbn [bind].
  - destruct P1 as [P1 _]. destruct (P1 eq_refl) as (r & R).
    assert (NP : ~ exists x q, p = d ++ x :: q) by (intros K; apply P2 in K; discriminate).
    destruct (Z_lt_ge_dec (zlen d) (zlen s)) as [L|L].
    + destruct s as [|x s]; [change (zlen (@nil Z)) with 0 in L; pose proof (zlen_nonneg d); lia|].
      rewrite prefix_loop_neg by lia. cbn [bind]. right; left. split; [eauto|exact L].
    + destruct (suffix_loop s d) as [[E Q]|[E Q]]; [lia| |]; rewrite E; cbn [bind].
      * destruct Q as (q & Q). destruct (Z_lt_ge_dec (zlen d) (zlen p + zlen s)) as [L2|L2].
        -- assert (SP : slice d (zlen p) (zlen d - zlen s) = Panic) by (apply slice_panic; lia). rewrite SP. right; right; eauto 6.
        -- assert (Lr : zlen s <= zlen r) by (apply (f_equal zlen) in R; rewrite zlen_app in R; lia).
           assert (exists h, r = h ++ s) as (h & ->).
           { rewrite R in Q. apply app_eq_app in Q as (l & [[Q1 Q2]|[Q1 Q2]]); [|eauto].
             rewrite Q2, zlen_app in Lr. destruct l; [exists []; rewrite app_nil_l in *; auto|].
             rewrite zlen_cons in Lr. pose proof (zlen_nonneg l). lia. }
           rewrite R. rewrite !zlen_app. rewrite slice_mid by lia. reflexivity.
      * split; [|intros h K; apply Q; exists (p ++ h); rewrite <- app_assoc; exact K].
        intros [K|[[_ K]|[_ [K _]]]]; [contradiction|lia|contradiction].
  - assert (N1 : ~ exists r, d = p ++ r) by (intros K; apply P1 in K; discriminate).
    assert (N2 : ~ exists x q, p = d ++ x :: q) by (intros K; apply P2 in K; discriminate).
    split; [|intros h K; apply N1; exists (h ++ s); exact K].
    intros [K|[[K _]|[K _]]]; contradiction.
  - left. apply P2. reflexivity.
Qed.

(** ** The base58 branch *)
Variable T : addr_type.
Variable f : bytes -> bytes.
Hypothesis HT : base58_profile H T f.
Lemma base58_enc_shape h : zlen h = hash_len T ->
  address_encode H h T =
  (c <- calc_checksum_of H ((prefix_of T ++ h) ++ suffix_of T) (checksum_type T) ;;
   encode_data (((prefix_of T ++ h) ++ suffix_of T) ++ c) (str "base58") (alphabet_of T)).
Proof.
  intros L. destruct HT as (E & _). unfold address_encode, encode_hashed. rewrite E.
  rewrite L, Z.eqb_refl. cbn [bind]. reflexivity.
Qed.
Lemma base58_dec_shape s :
  address_decode H s T =
  (data <- decode_data H s (str "base58") (alphabet_of T) (checksum_type T) (prefix_of T) (suffix_of T) ;;
   if zlen data =? hash_len T then Ok data else Err).
Proof. destruct HT as (E & _). unfold address_decode. rewrite E. reflexivity. Qed.

Lemma framed_bytes h : is_bytes h -> is_bytes (framed T h).
Proof. destruct HT as (_ & _ & _ & Hp & Hs). intros. unfold framed. rewrite !is_bytes_app. auto. Qed.

Lemma base58_encode_eq2 al h : new_alphabet (alphabet_of T) = Ok al -> is_bytes h -> zlen h = hash_len T ->
  address_encode H h T = base58_encode al (checked f (framed T h)).
Proof.
  intros Hal Hh L. rewrite base58_enc_shape by exact L. destruct HT as (_ & (A1 & A2 & A3) & R & _).
  rewrite <- app_assoc. fold (framed T h). rewrite (calc_rule _ f) by (try assumption; apply framed_bytes, Hh).
  cbn [bind]. unfold encode_data. change (beq (str "base58") (str "base58")) with true. cbv iota.
  rewrite runes_ascii, Hal by exact A3. reflexivity.
Qed.
Lemma base58_decode_eq2 al s : new_alphabet (alphabet_of T) = Ok al -> is_bytes s ->
  address_decode H s T =
  (ret <- base58_decode al s ;; body <- checked_body (checksum_type T) ret ;;
   data <- recover_data body (prefix_of T) (suffix_of T) ;;
   if zlen data =? hash_len T then Ok data else Err).
Proof.
  intros Hal Hs. rewrite base58_dec_shape. destruct HT as (_ & (A1 & A2 & A3) & R & _).
  unfold decode_data. change (beq (str "base58") (str "base58")) with true. cbv iota.
  rewrite runes_ascii, Hal by exact A3. cbn [bind]. unfold checked_body.
  destruct (base58_decode al s) as [r| |]; cbn [bind]; try reflexivity.
  destruct (verify_checksum_of H r _) as [[]| |]; cbn [bind negb]; try reflexivity.
  destruct (slice r 0 _); reflexivity.
Qed.

Lemma address_round h : is_bytes h -> zlen h = hash_len T ->
  exists s, address_encode H h T = Ok s /\ address_decode H s T = Ok h /\
    is_base58_of (alphabet_of T) (checked f (framed T h)) s.
Proof.
  intros Hh L. destruct HT as (_ & A & R & _). destruct (new_alphabet_accepts _ A) as (al & Hal).
  pose proof (rule_hash_ok _ _ R) as Hf. pose proof (framed_bytes h Hh) as Fb.
  destruct (enc_checked f Hf _ A al Hal _ Fb) as (s & E & D & As). exists s.
  split; [rewrite (base58_encode_eq2 al); assumption|].
  split; [|apply (base58_numeral _ al); try assumption; apply checked_bytes; assumption].
  rewrite (base58_decode_eq2 al) by (try assumption; apply ascii_bytes, As). rewrite D. cbn [bind].
  rewrite (checked_body_checked _ f) by assumption. cbn [bind]. unfold framed. rewrite recover_framed. cbn [bind].
  rewrite L, Z.eqb_refl. reflexivity.
Qed.
Lemma numeral_decode al b s : new_alphabet (alphabet_of T) = Ok al -> is_bytes b -> is_base58_of (alphabet_of T) b s -> base58_decode al s = Ok b.
Proof.
  intros Hal Hb N. destruct HT as (_ & A & _). destruct (base58_decode_encode _ al b A Hal Hb) as (s' & E & D).
  rewrite (base58_of_unique _ _ _ _ N (base58_numeral _ al b s' A Hal Hb E)). exact D.
Qed.
Lemma numeral_bytes b s : is_bytes b -> is_base58_of (alphabet_of T) b s -> is_bytes s.
Proof.
  intros Hb N. destruct HT as (_ & A & _). destruct (new_alphabet_accepts _ A) as (al & Hal).
  destruct (decode_encode _ A al (new_alphabet_al _ al A Hal) b Hb) as (s' & E & D & As).
  rewrite (base58_of_unique _ _ _ _ N (base58_numeral _ al b s' A Hal Hb E)). apply ascii_bytes, As.
Qed.
Lemma address_decode_total s : is_bytes s ->
  match address_decode H s T with
  | Ok h => is_bytes h /\ zlen h = hash_len T /\ is_base58_of (alphabet_of T) (checked f (framed T h)) s /\ address_encode H h T = Ok s
  | Panic => exists d, is_bytes d /\ is_base58_of (alphabet_of T) (checked f d) s /\ recover_short (prefix_of T) (suffix_of T) d
  | Err => forall d, is_bytes d -> is_base58_of (alphabet_of T) (checked f d) s ->
      ~ recover_short (prefix_of T) (suffix_of T) d /\ (forall h, zlen h = hash_len T -> d <> framed T h)
  end.
Proof.
  intros Hs. pose proof HT as (_ & A & R & _). destruct (new_alphabet_accepts _ A) as (al & Hal).
  pose proof (rule_hash_ok _ _ R) as Hf.
  rewrite (base58_decode_eq2 al) by assumption.
  destruct (base58_decode al s) as [r| |] eqn:D; cbn [bind].
  - destruct (base58_encode_decode _ al s r A Hal Hs D) as [Hr E]. pose proof (base58_numeral _ al r s A Hal Hr E) as N.
    destruct (checked_body_spec _ f r R Hr) as [(d & Hd & -> & C)|[Nc C]]; rewrite C; cbn [bind].
    + pose proof (recover_spec d (prefix_of T) (suffix_of T)) as RS.
      destruct (recover_data d _ _) as [h| |]; cbn [bind].
      * assert (Hh : is_bytes h) by (rewrite RS, !is_bytes_app in Hd; tauto).
        destruct (zlen h =? hash_len T) eqn:L.
        -- split; [exact Hh|]. split; [lia|]. split; [rewrite RS in N; exact N|].
           rewrite (base58_encode_eq2 al) by (try assumption; lia). unfold framed. rewrite <- RS. exact E.
        -- intros d' Hd' N'. assert (d' = d).
           { apply (checked_inj f Hf); try assumption. apply (numeral_decode al) in N'; [congruence|assumption|apply checked_bytes; assumption]. }
           subst d'. split.
           ++ intros K. rewrite RS in K. destruct K as [(x & q & K)|[[_ K]|[_ [_ K]]]].
              ** apply (f_equal zlen) in K. rewrite !zlen_app, zlen_cons in K. pose proof (zlen_nonneg h). pose proof (zlen_nonneg (suffix_of T)). pose proof (zlen_nonneg q). lia.
              ** rewrite !zlen_app in K. pose proof (zlen_nonneg h). pose proof (zlen_nonneg (prefix_of T)). lia.
              ** rewrite !zlen_app in K. pose proof (zlen_nonneg h). lia.
           ++ intros h' L' K. unfold framed in K. rewrite RS in K. apply app_inv_head in K. apply app_inv_tail in K. subst h'. lia.
      * intros d' Hd' N'. assert (d' = d).
        { apply (checked_inj f Hf); try assumption. apply (numeral_decode al) in N'; [congruence|assumption|apply checked_bytes; assumption]. }
        subst d'. destruct RS as [RS1 RS2]. split; [exact RS1|]. intros h _. apply RS2.
      * exists d. auto.
    + intros d Hd N'. apply (numeral_decode al) in N'; [|assumption|apply checked_bytes; assumption].
      exfalso. apply (Nc d Hd). congruence.
  - intros d Hd N'. apply (numeral_decode al) in N'; [|assumption|apply checked_bytes; assumption]. congruence.
  - destruct (base58_decode_never_panics _ al s A Hal Hs) as [K _]. contradiction.
Qed.
End S.
