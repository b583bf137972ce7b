(** Lemmas about the XMR branch. *)
From Coq Require Import String ZArith List Bool Lia ZifyBool ZifyNat.
From Verif Require Import Go GoFacts GoFacts2 Base58Model Base58Spec Base58Proofs Base58Props Base58CheckModel Base58CheckSpec Base58CheckProofs AddressModel AddressSpec AddressProofs Digits58 XmrSpec.
Import ListNotations.
Open Scope Z_scope.
Ltac Zify.zify_post_hook ::= idtac.

(** The widths fit: n bytes always need at most w digits, also after removing leading zeros. *)
Definition fits (n w : nat) : bool :=
  (n <=? w)%nat && forallb (fun z => 256 ^ Z.of_nat (n - z) <=? 58 ^ Z.of_nat (w - z)) (seq 0 (S n)).
Lemma fits_8_11 : fits 8 11 = true. Proof. vm_compute. reflexivity. Qed.
Lemma fits_5_7 : fits 5 7 = true. Proof. vm_compute. reflexivity. Qed.
Lemma fits_use n w z : fits n w = true -> (z <= n)%nat -> (n <= w)%nat /\ 256 ^ Z.of_nat (n - z) <= 58 ^ Z.of_nat (w - z).
Proof.
  intros F Hz. apply andb_prop in F as [F1 F2]. split; [apply Nat.leb_le, F1|].
  rewrite forallb_forall in F2. apply Z.leb_le, F2, in_seq. lia.
Qed.

Section S.
Variable rs : list Z.
Hypothesis Hrs : alphabet_ok rs.
Variable al : alphabet.
Hypothesis Hal : new_alphabet rs = Ok al.
Hypothesis H0 : symbol rs 0 = 49.
Let As := new_alphabet_al rs al Hrs Hal.

Lemma lead0_le l : (lead0 l <= length l)%nat.
Proof. rewrite (strip0_lead0 l) at 2. rewrite app_length. unfold zeros. rewrite repeat_length. lia. Qed.
Lemma pow58_mono a b : 58 ^ a < 58 ^ b -> 0 <= b -> a < b.
Proof. intros L Hb. destruct (Z_lt_ge_dec a b); [assumption|]. assert (58 ^ b <= 58 ^ a) by (apply Z.pow_le_mono_r; lia). lia. Qed.

Lemma block_enc n w b : fits n w = true -> is_bytes b -> length b = n ->
  exists s, base58_encode al b = Ok s /\ pad_ones (Z.of_nat w) s = map (symbol rs) (digits58 w (be_num b)).
Proof.
  intros F Hb L. destruct (base58_encode_eq rs Hrs al As b Hb) as (ds & R & D & Hh & V).
  eexists. split; [exact R|]. set (z := lead0 b) in *.
  assert (Hz : (z <= n)%nat) by (subst n; apply lead0_le).
  destruct (fits_use n w z F Hz) as [Hnw Fz].
  assert (Lb : be_num b < 256 ^ Z.of_nat (n - z)).
  { rewrite <- be_num_strip0. assert (Hs : is_bytes (strip0 b)) by (apply strip0_bytes, Hb).
    pose proof (be_num_bound _ Hs) as [_ B]. replace (Z.of_nat (n - z)) with (zlen (strip0 b)); [exact B|].
    pose proof (f_equal (@length Z) (strip0_lead0 b)) as LL. rewrite app_length in LL. unfold zeros in LL. rewrite repeat_length in LL.
    unfold zlen, z. lia. }
  assert (Ld : (z + length ds <= w)%nat).
  { destruct ds as [|d ds]; [cbn [length]; lia|].
    pose proof (bval_hd_lower (d :: ds) D Hh ltac:(discriminate)) as B. rewrite V in B.
    assert (zlen (d :: ds) - 1 < Z.of_nat (w - z)) by (apply pow58_mono; lia). unfold zlen in *. lia. }
  unfold pad_ones. rewrite zlen_map, zlen_app. rewrite <- H0, <- (map_repeat (symbol rs)), <- map_app.
  f_equal. set (k := Z.to_nat _). change (repeat 0 z) with (zeros z). change (repeat 0 k) with (zeros k).
  assert (D' : digits 58 (zeros k ++ zeros z ++ ds)) by (repeat (apply Forall_app; split); try apply digits_repeat0; exact D).
  rewrite (bval_digits58 _ D'). rewrite !bval_zeros, V. f_equal. unfold k, zlen, zeros. rewrite !app_length, !repeat_length. lia.
Qed.

Lemma last_bytes n d : is_bytes d -> (n <= length d)%nat -> skipn (length d - n) d = be_bytes n (be_num d).
Proof.
  intros Hd L. set (a := firstn (length d - n) d). set (t := skipn (length d - n) d).
  assert (E : d = a ++ t) by (symmetry; apply firstn_skipn).
  assert (Lt : length t = n) by (unfold t; rewrite skipn_length; lia).
  assert (Ht : is_bytes t) by (rewrite E in Hd; apply is_bytes_app in Hd; tauto).
  apply be_num_inj; [exact Ht|apply be_bytes_is_bytes|rewrite be_bytes_length; exact Lt|].
  rewrite be_num_be_bytes, E, be_num_app. unfold zlen. rewrite Lt.
  rewrite Z.add_comm, Z_mod_plus_full, Z.mod_small; [reflexivity|]. pose proof (be_num_bound t Ht) as B. unfold zlen in B. rewrite Lt in B. exact B.
Qed.
Lemma block_dec n w ds : fits n w = true -> digits 58 ds -> length ds = w ->
  exists d, base58_decode al (map (symbol rs) ds) = Ok d /\ Z.of_nat n <= zlen d /\
    slice_from d (zlen d - Z.of_nat n) = Ok (be_bytes n (bval 58 ds)).
Proof.
  intros F D L. destruct (base58_decode_sym rs Hrs al As ds D) as (b & R & Hb & Hh & V).
  set (z := lead0 ds) in *. exists (zeros z ++ b).
  assert (Ln : (n <= z + length b)%nat).
  { destruct (le_lt_dec n (z + length b)) as [|K]; [assumption|]. exfalso.
    assert (Hz : (S z <= n)%nat) by lia. destruct (fits_use n w (S z) F Hz) as [Hnw Fz].
    pose proof (be_num_bound b Hb) as [_ B]. rewrite V in B.
    assert (S1 : bval 58 ds = bval 58 (strip0 ds)) by (rewrite (strip0_lead0 ds) at 1; apply bval_zeros).
    assert (Ls : length (strip0 ds) = (w - z)%nat).
    { pose proof (f_equal (@length Z) (strip0_lead0 ds)) as LL. rewrite app_length in LL. unfold zeros in LL. rewrite repeat_length in LL. unfold z. lia. }
    assert (Ds : digits 58 (strip0 ds)) by (rewrite (strip0_lead0 ds) in D; apply Forall_app in D; tauto).
    assert (Nn : strip0 ds <> []) by (intros Q; rewrite Q in Ls; cbn in Ls; lia).
    pose proof (bval_hd_lower _ Ds (hd_strip0 ds) Nn) as B2. rewrite <- S1 in B2. unfold zlen in B2 at 1. rewrite Ls in B2.
    replace (Z.of_nat (w - S z)) with (Z.of_nat (w - z) - 1) in Fz by lia.
    assert (256 ^ zlen b <= 256 ^ Z.of_nat (n - S z)) by (apply Z.pow_le_mono_r; unfold zlen; lia). lia. }
  assert (Lz : zlen (zeros z ++ b) = Z.of_nat (z + length b)) by (unfold zlen, zeros; rewrite app_length, repeat_length; reflexivity).
  split; [|split].
  - unfold base58_decode. rewrite runes_ascii; [exact R|]. apply (map_sym_ascii rs Hrs), D.
  - rewrite Lz. lia.
  - assert (Bd : is_bytes (zeros z ++ b)) by (apply is_bytes_app; split; [apply is_bytes_zeros|exact Hb]).
    rewrite <- V, <- (be_num_zeros z b), <- last_bytes; [|exact Bd|unfold zlen in Lz; lia].
    unfold slice_from, slice. rewrite Lz. replace (_ && _ && _) with true by lia.
    f_equal. rewrite firstn_all2; [f_equal|rewrite skipn_length]; unfold zlen in Lz; lia.
Qed.
Lemma block_dec_bad s : is_bytes s -> ~ Forall (fun c => In c rs) s -> base58_decode al s = Err.
Proof.
  intros Hs N. destruct (decode_cases rs Hrs al As s Hs) as [[V _]|[_ E]]; [contradiction|exact E].
Qed.

(** ** The loops *)
Lemma chunks (w r : nat) : (0 < w)%nat -> forall k (d : list Z), length d = (k * w + r)%nat ->
  exists bs last, d = concat bs ++ last /\ Forall (fun b => length b = w) bs /\ length bs = k /\ length last = r.
Proof.
  intros Hw. induction k as [|k IH]; intros d L.
  - exists [], d. cbn. auto.
  - destruct (IH (skipn w d)) as (bs & last & E & F & Lb & Ll); [rewrite skipn_length; lia|].
    exists (firstn w d :: bs), last. split.
    + cbn [concat]. rewrite <- app_assoc, <- E. symmetry. apply firstn_skipn.
    + split; [constructor; [rewrite firstn_length; lia|exact F]|]. cbn [length]. auto.
Qed.
Definition enc_blk (b : bytes) : list Z := map (symbol rs) (digits58 11 (be_num b)).
Lemma enc_loop_eq bs : forall pre rest i, Forall (fun b => length b = 8%nat) bs -> is_bytes (concat bs) -> zlen pre = i * 8 ->
  xmr_enc_loop (length bs) i al (pre ++ concat bs ++ rest) = Ok (concat (map enc_blk bs)).
Proof.
  induction bs as [|b bs IH]; intros pre rest i F B L; cbn [length xmr_enc_loop map concat]; [reflexivity|].
  inversion F; subst. cbn [concat] in B. apply is_bytes_app in B as [Hb B].
  rewrite <- app_assoc. rewrite slice_mid by (unfold zlen in *; lia). cbn [bind].
  destruct (block_enc 8 11 b fits_8_11 Hb H2) as (s & E & P). rewrite E. cbn [bind].
  replace (pre ++ b ++ concat bs ++ rest) with ((pre ++ b) ++ concat bs ++ rest) by (rewrite <- app_assoc; reflexivity).
  rewrite IH; [|assumption|assumption|rewrite zlen_app; unfold zlen in *; lia]. cbn [bind].
  unfold enc_blk at 2. change 11 with (Z.of_nat 11). rewrite P. reflexivity.
Qed.
Lemma enc_blocks_eq k data : is_bytes data -> length data = (k * 8 + 5)%nat ->
  exists t, xmr_encode_blocks al data = Ok t /\ monero_text rs data t.
Proof.
  intros Hd L. destruct (chunks 8 5 ltac:(lia) k data L) as (bs & last & E & F & Lb & Ll).
  assert (Zd : zlen data = Z.of_nat k * 8 + 5) by (unfold zlen; lia).
  rewrite E in Hd. apply is_bytes_app in Hd as [Hbs Hl].
  destruct (block_enc 5 7 last fits_5_7 Hl Ll) as (s & Es & P).
  exists (concat (map enc_blk bs) ++ map (symbol rs) (digits58 7 (be_num last))). split.
  - unfold xmr_encode_blocks. rewrite Z.shiftr_div_pow2 by lia. change (2 ^ 3) with 8.
    replace (zlen data / 8) with (Z.of_nat k) by (rewrite Zd; apply (Z.div_unique _ 8 _ 5); lia).
    rewrite Z.shiftl_mul_pow2 by lia. change (2 ^ 3) with 8. rewrite Nat2Z.id, <- Lb.
    pose proof (enc_loop_eq bs [] last 0 F Hbs eq_refl) as EL. cbn [app] in EL. rewrite <- E in EL. rewrite EL. cbn [bind].
    assert (Zc : zlen (concat bs) = Z.of_nat k * 8).
    { apply (f_equal zlen) in E. rewrite zlen_app, Zd in E. assert (zlen last = 5) by (unfold zlen; lia). lia. }
    rewrite Lb, E. rewrite slice_post; [|rewrite Zc; reflexivity|rewrite zlen_app; lia]. cbn [bind].
    rewrite Es. cbn [bind]. change 7 with (Z.of_nat 7). rewrite P. reflexivity.
  - rewrite E. clear - F Ll. induction bs as [|b bs IH].
    + cbn [concat map app]. rewrite <- bval_256, <- positional_bval. constructor. exact Ll.
    + inversion F; subst. cbn [concat map]. rewrite <- !app_assoc. unfold enc_blk at 1. rewrite <- bval_256, <- positional_bval. constructor; auto.
Qed.

Definition dec_blk (ds : list Z) : bytes := be_bytes 8 (bval 58 ds).
Lemma dec_loop_eq dss : forall pre rest i, Forall (fun b => length b = 11%nat) dss -> digits 58 (concat dss) -> zlen pre = i * 11 ->
  xmr_dec_loop (length dss) i al (pre ++ map (symbol rs) (concat dss) ++ rest) = Ok (concat (map dec_blk dss)).
Proof.
  induction dss as [|b bs IH]; intros pre rest i F B L; cbn [length xmr_dec_loop map concat]; [reflexivity|].
  inversion F; subst. cbn [concat] in B. apply Forall_app in B as [Hb B].
  rewrite map_app, <- app_assoc. rewrite slice_mid by (rewrite ?zlen_map; unfold zlen in *; lia). cbn [bind].
  destruct (block_dec 8 11 b fits_8_11 Hb H2) as (s & E & L8 & P). rewrite E. cbn [bind].
  replace (zlen s <? 8) with false by lia. change (Z.of_nat 8) with 8 in P. rewrite P. cbn [bind].
  replace (pre ++ map (symbol rs) b ++ map (symbol rs) (concat bs) ++ rest) with ((pre ++ map (symbol rs) b) ++ map (symbol rs) (concat bs) ++ rest) by (rewrite <- app_assoc; reflexivity).
  rewrite IH; [|assumption|assumption|rewrite zlen_app, zlen_map; unfold zlen in *; lia]. reflexivity.
Qed.
Lemma dec_blocks_eq k ds : digits 58 ds -> length ds = (k * 11 + 7)%nat ->
  exists b, xmr_decode_blocks al (map (symbol rs) ds) = Ok b /\ monero_reads rs (map (symbol rs) ds) b /\ length b = (k * 8 + 5)%nat /\ is_bytes b.
Proof.
  intros Hd L. destruct (chunks 11 7 ltac:(lia) k ds L) as (bs & last & E & F & Lb & Ll).
  assert (Zd : zlen ds = Z.of_nat k * 11 + 7) by (unfold zlen; lia).
  rewrite E in Hd. apply Forall_app in Hd as [Hbs Hl].
  destruct (block_dec 5 7 last fits_5_7 Hl Ll) as (s & Es & L5 & P).
  exists (concat (map dec_blk bs) ++ be_bytes 5 (bval 58 last)). split; [|split; [|split]].
  - unfold xmr_decode_blocks. rewrite zlen_map.
    replace (zlen ds / 11) with (Z.of_nat k) by (rewrite Zd; apply (Z.div_unique _ 11 _ 7); lia).
    rewrite Nat2Z.id, <- Lb.
    pose proof (dec_loop_eq bs [] (map (symbol rs) last) 0 F Hbs eq_refl) as EL. cbn [app] in EL. rewrite <- map_app, <- E in EL. rewrite EL. cbn [bind].
    assert (Zc : zlen (concat bs) = Z.of_nat k * 11).
    { apply (f_equal zlen) in E. rewrite zlen_app, Zd in E. assert (zlen last = 7) by (unfold zlen; lia). lia. }
    rewrite Lb, E, map_app. rewrite slice_post; [|rewrite zlen_map, Zc; reflexivity|rewrite !zlen_map, zlen_app; lia]. cbn [bind].
    rewrite Es. cbn [bind]. replace (zlen s <? 5) with false by lia. change (Z.of_nat 5) with 5 in P. rewrite P. reflexivity.
  - rewrite E. clear - F Ll Hbs Hl. induction bs as [|b bs IH].
    + cbn [concat map app]. rewrite <- positional_bval. constructor; assumption.
    + inversion F; subst. cbn [concat map] in *. apply Forall_app in Hbs as [Hb Hbs]. rewrite map_app in *. rewrite <- !app_assoc in *.
      rewrite map_app. rewrite <- app_assoc. unfold dec_blk at 1. rewrite <- positional_bval. constructor; auto.
  - rewrite app_length, be_bytes_length. f_equal. rewrite <- Lb. clear. induction bs; [reflexivity|]. cbn [map concat length]. rewrite app_length, IHbs. unfold dec_blk. rewrite be_bytes_length. lia.
  - apply is_bytes_app. split; [|apply be_bytes_is_bytes]. clear. induction bs; [constructor|]. cbn [map concat]. apply is_bytes_app. split; [apply be_bytes_is_bytes|exact IHbs].
Qed.

(** ** Reading is a function *)
Lemma syms_inj a : forall b, digits 58 a -> digits 58 b -> map (symbol rs) a = map (symbol rs) b -> a = b.
Proof.
  induction a as [|x a IH]; intros [|y b] Da Db E; try discriminate; [reflexivity|].
  inversion Da; inversion Db; subst. cbn [map] in E. injection E as E1 E2.
  f_equal; [apply (sym_inj rs Hrs al As); assumption|apply IH; assumption].
Qed.
Lemma reads_length s b : monero_reads rs s b -> exists k, length s = (k * 11 + 7)%nat /\ length b = (k * 8 + 5)%nat /\ exists ds, digits 58 ds /\ s = map (symbol rs) ds.
Proof.
  induction 1 as [ds L D|ds s b L D R (k & Ls & Lb & ds' & D' & ->)].
  - exists O. rewrite map_length, be_bytes_length. eauto.
  - exists (S k). rewrite !app_length, !map_length in *. rewrite be_bytes_length. split; [lia|]. split; [lia|].
    exists (ds ++ ds'). split; [apply Forall_app; auto|rewrite map_app; reflexivity].
Qed.
Lemma app_len_inv {A} (a b c d : list A) : length a = length c -> a ++ b = c ++ d -> a = c /\ b = d.
Proof.
  revert c. induction a as [|x a IH]; intros [|y c] L E; try discriminate; [auto|].
  cbn [app] in E. injection E as -> E. apply IH in E as [-> ->]; [auto|cbn [length] in L; lia].
Qed.
Lemma reads_fun s b : monero_reads rs s b -> forall b', monero_reads rs s b' -> b = b'.
Proof.
  induction 1 as [ds L D|ds s b L D R IH]; intros b' R'.
  - inversion R' as [ds' L' D' E1 E2|ds' s' b0 L' D' R0 E1 E2].
    + apply syms_inj in E1; [subst; reflexivity|assumption|assumption].
    + exfalso. apply (f_equal (@length Z)) in E1. rewrite app_length, !map_length in E1. lia.
  - inversion R' as [ds' L' D' E1 E2|ds' s' b0 L' D' R0 E1 E2].
    + exfalso. apply (f_equal (@length Z)) in E1. rewrite app_length, !map_length in E1. lia.
    + apply app_len_inv in E1 as [E1 <-]; [|rewrite !map_length; congruence].
      apply syms_inj in E1; [subst ds'|assumption|assumption]. f_equal. apply IH. exact R0.
Qed.
Lemma reads_decode s b : monero_reads rs s b -> xmr_decode_blocks al s = Ok b.
Proof.
  intros R. destruct (reads_length s b R) as (k & Ls & Lb & ds & D & ->). rewrite map_length in Ls.
  destruct (dec_blocks_eq k ds D Ls) as (b' & E & R' & _). rewrite (reads_fun _ _ R _ R'). exact E.
Qed.
Lemma decode_reads k s b : is_bytes s -> length s = (k * 11 + 7)%nat -> xmr_decode_blocks al s = Ok b ->
  monero_reads rs s b /\ length b = (k * 8 + 5)%nat /\ is_bytes b.
Proof.
  intros Hs L E. assert (V : Forall (fun c => In c rs) s).
  { destruct (Forall_dec (fun c => In c rs) (fun c => in_dec Z.eq_dec c rs) s) as [V|N]; [exact V|]. exfalso.
    destruct (chunks 11 7 ltac:(lia) k s L) as (bs & last & Es & F & Lb & Ll).
    assert (Zd : zlen s = Z.of_nat k * 11 + 7) by (unfold zlen; lia).
    unfold xmr_decode_blocks in E. replace (zlen s / 11) with (Z.of_nat k) in E by (rewrite Zd; apply (Z.div_unique _ 11 _ 7); lia).
    rewrite Nat2Z.id in E. apply bind_ok in E as (body & E1 & E). apply bind_ok in E as (l & E2 & E). apply bind_ok in E as (d & E3 & E).
    assert (Zc : zlen (concat bs) = Z.of_nat k * 11).
    { apply (f_equal zlen) in Es. rewrite zlen_app, Zd in Es. assert (zlen last = 7) by (unfold zlen; lia). lia. }
    rewrite Es in E2. rewrite slice_post in E2 by (rewrite ?Zc; rewrite ?zlen_app; lia). injection E2 as <-.
    rewrite Es in Hs. apply is_bytes_app in Hs as [Hb Hl].
    assert (Vl : Forall (fun c => In c rs) last).
    { destruct (Forall_dec (fun c => In c rs) (fun c => in_dec Z.eq_dec c rs) last) as [V|Nl]; [exact V|].
      rewrite block_dec_bad in E3 by assumption. discriminate. }
    assert (Vb : Forall (fun c => In c rs) (concat bs)).
    { rewrite <- Lb in E1. rewrite Es in E1. clear - E1 F Hb As.
      assert (G : forall bs pre rest i body, Forall (fun b => length b = 11%nat) bs -> is_bytes (concat bs) -> zlen pre = i * 11 ->
        xmr_dec_loop (length bs) i al (pre ++ concat bs ++ rest) = Ok body -> Forall (fun c => In c rs) (concat bs)).
      { clear E1 F Hb bs body. induction bs as [|b bs IH]; intros pre rest i body F Hb L E; [constructor|].
        inversion F; subst. cbn [concat length xmr_dec_loop] in *. apply is_bytes_app in Hb as [Hb Hbs].
        rewrite <- app_assoc in E. rewrite slice_mid in E by (unfold zlen in *; lia). cbn [bind] in E.
        apply bind_ok in E as (d & Ed & E). destruct (zlen d <? 8); [discriminate|]. apply bind_ok in E as (d8 & _ & E). apply bind_ok in E as (t & Et & _).
        apply Forall_app. split.
        - destruct (Forall_dec (fun c => In c rs) (fun c => in_dec Z.eq_dec c rs) b) as [V|Nl]; [exact V|].
          rewrite block_dec_bad in Ed by assumption. discriminate.
        - replace (pre ++ b ++ concat bs ++ rest) with ((pre ++ b) ++ concat bs ++ rest) in Et by (rewrite <- app_assoc; reflexivity).
          apply (IH (pre ++ b) rest (i + 1) t); try assumption. rewrite zlen_app. unfold zlen in *. lia. }
      apply (G bs [] last 0 body F Hb eq_refl E1). }
    apply N. rewrite Es. apply Forall_app. auto. }
  destruct (valid_symbols rs Hrs s V) as (ds & D & ->). change (sym rs) with (symbol rs) in *. rewrite map_length in L.
  destruct (dec_blocks_eq k ds D L) as (b' & E' & R & Lb & Hb). rewrite E in E'. injection E' as <-. auto.
Qed.
Lemma block_back n w b : is_bytes b -> length b = n -> 256 ^ Z.of_nat n <= 58 ^ Z.of_nat w ->
  be_bytes n (positional 58 (digits58 w (positional 256 b))) = b.
Proof.
  intros Hb L F. rewrite !positional_bval, bval_256. pose proof (be_num_bound b Hb) as B. unfold zlen in B. rewrite L in B.
  rewrite digits58_bval by lia. subst n. apply be_bytes_be_num, Hb.
Qed.
Lemma text_reads b t : is_bytes b -> monero_text rs b t -> monero_reads rs t b.
Proof.
  intros Hb R. induction R as [b L|b r t L R IH].
  - pose proof (reads_last rs (digits58 7 (positional 256 b)) (digits58_length _ _) (digits58_range _ _)) as Q.
    rewrite (block_back 5 7) in Q; [exact Q|exact Hb|exact L|vm_compute; discriminate].
  - apply is_bytes_app in Hb as [Hb Hr].
    pose proof (reads_block rs (digits58 11 (positional 256 b)) t r (digits58_length _ _) (digits58_range _ _) (IH Hr)) as Q.
    rewrite (block_back 8 11) in Q; [exact Q|exact Hb|exact L|vm_compute; discriminate].
Qed.
Lemma text_length b t : monero_text rs b t -> exists k, length b = (k * 8 + 5)%nat /\ length t = (k * 11 + 7)%nat.
Proof.
  induction 1 as [b L|b r t L R (k & Lr & Lt)].
  - exists O. rewrite map_length, digits58_length. auto.
  - exists (S k). rewrite !app_length, map_length, digits58_length. lia.
Qed.
(** A second numeral for the same first block. *)
Lemma second_text b t : is_bytes b -> (8 <= length b - 5)%nat -> monero_text rs b t -> be_num (firstn 8 b) + 2 ^ 64 < 58 ^ 11 ->
  exists t', t' <> t /\ length t' = length t /\ monero_reads rs t' b.
Proof.
  intros Hb L8 R Hv. inversion R as [b0 L E1 E2|b0 r t0 L R0 E1 E2]; subst; [lia|].
  rewrite firstn_app, L, Nat.sub_diag in Hv. rewrite firstn_all2 in Hv by lia. cbn [firstn] in Hv. rewrite app_nil_r in Hv.
  apply is_bytes_app in Hb as [Hb Hr].
  exists (map (symbol rs) (digits58 11 (be_num b0 + 2 ^ 64)) ++ t0).
  pose proof (be_num_bound b0 Hb) as [B1 B2]. unfold zlen in B2. rewrite L in B2.
  assert (V1 : bval 58 (digits58 11 (be_num b0 + 2 ^ 64)) = be_num b0 + 2 ^ 64) by (apply digits58_bval; change (Z.of_nat 11) with 11; lia).
  assert (V2 : bval 58 (digits58 11 (be_num b0)) = be_num b0) by (apply digits58_bval; change (Z.of_nat 11) with 11; lia).
  split; [|split].
  - intros K. apply app_inv_tail in K. rewrite positional_bval, bval_256 in K.
    apply syms_inj in K; try apply digits58_range. rewrite K in V1. lia.
  - rewrite !app_length, !map_length, !digits58_length. reflexivity.
  - assert (Eb : be_bytes 8 (positional 58 (digits58 11 (be_num b0 + 2 ^ 64))) = b0).
    { rewrite positional_bval, V1. apply be_num_inj; [apply be_bytes_is_bytes|exact Hb|rewrite be_bytes_length; lia|].
      rewrite be_num_be_bytes. change (256 ^ Z.of_nat 8) with (2 ^ 64).
      replace (be_num b0 + 2 ^ 64) with (be_num b0 + 1 * 2 ^ 64) by lia. rewrite Z_mod_plus_full. apply Z.mod_small.
      change (256 ^ Z.of_nat 8) with (2 ^ 64) in B2. lia. }
    pose proof (reads_block rs (digits58 11 (be_num b0 + 2 ^ 64)) t0 r (digits58_length _ _) (digits58_range _ _) (text_reads _ _ Hr R0)) as Q.
    rewrite Eb in Q. exact Q.
Qed.
End S.
