(** Lemmas about the hexadecimal (eip55, ICX) and prefixed-key (EOS, AE) branches. *)
From Coq Require Import String ZArith List Bool Lia ZifyBool ZifyNat.
From Verif Require Import Go GoFacts GoFacts2 Base58Model Base58Spec Base58Proofs Base58Props Base58CheckModel Base58CheckSpec Base58CheckProofs Bech32mModel AddressModel AddressSpec AddressProofs.
Import ListNotations.
Open Scope Z_scope.
Ltac Zify.zify_post_hook ::= idtac.

Lemma hex_char_lower c v : 0 <= v < 16 -> lower_char c = hex_digit v <-> hex_val c = Some v.
Proof.
  intros Hv. unfold lower_char, hex_digit, hex_val.
  destruct (Z.ltb_spec v 10); destruct (Z.leb_spec 65 c), (Z.leb_spec c 90), (Z.leb_spec 48 c), (Z.leb_spec c 57), (Z.leb_spec 97 c), (Z.leb_spec c 102), (Z.leb_spec c 70); cbn [andb]; split; intros E; try discriminate; try (f_equal; lia); try (injection E as E; lia); lia.
Qed.
Lemma hex_decode_iff s : forall a, hex_decode s = Ok a <-> is_bytes a /\ to_lower s = hex_encode a.
Proof.
  induction s as [|c|c d s IH] using pair_ind; intros a; cbn [hex_decode].
  - split; [intros E; injection E as <-; split; [constructor|reflexivity]|]. intros [_ E]. destruct a; [reflexivity|discriminate].
  - split; [discriminate|]. intros [_ E]. destruct a; discriminate.
  - change (to_lower (c :: d :: s)) with (lower_char c :: lower_char d :: to_lower s). split.
    + destruct (hex_val c) as [x|] eqn:X; [|discriminate]. destruct (hex_val d) as [y|] eqn:Y; [|discriminate].
      pose proof (hex_val_range _ _ X). pose proof (hex_val_range _ _ Y).
      intros E. apply bind_ok in E as (t & E & R). injection R as <-. apply IH in E as [B L].
      split; [constructor; [unfold is_byte; lia|exact B]|].
      change (hex_encode (x * 16 + y :: t)) with (hex_digit ((x * 16 + y) / 16) :: hex_digit ((x * 16 + y) mod 16) :: hex_encode t).
      rewrite Z.div_add_l, (Z.div_small y), Z.add_0_r by lia. rewrite Z.add_comm, Z_mod_plus_full, Z.mod_small by lia.
      apply hex_char_lower in X; [|assumption]. apply hex_char_lower in Y; [|assumption]. congruence.
    + intros [B L]. destruct a as [|b a]; [discriminate|].
      change (hex_encode (b :: a)) with (hex_digit (b / 16) :: hex_digit (b mod 16) :: hex_encode a) in L.
      apply is_bytes_cons in B as [Hb B]. unfold is_byte in Hb.
      assert (0 <= b / 16 < 16) by (split; [apply Z.div_pos; lia|apply Z.div_lt_upper_bound; lia]).
      pose proof (Z.mod_pos_bound b 16 ltac:(lia)).
      injection L as L1 L2 L3. apply hex_char_lower in L1; [|assumption]. apply hex_char_lower in L2; [|assumption].
      rewrite L1, L2. rewrite (proj2 (IH a)) by auto. cbn [bind]. f_equal. f_equal.
      rewrite Z.mul_comm, <- Z.div_mod by lia. reflexivity.
Qed.

(** ** eip55 *)
Lemma slice_first2 (a b : Z) r : slice (a :: b :: r) 0 2 = Ok [a; b].
Proof. apply (slice_pre [a; b] r). reflexivity. Qed.
Lemma eip55_decode_eq s : eip55_decode s =
  match s with
  | [] => Panic | [_] => Panic
  | a :: b :: r => hex_decode (if beq [a; b] (str "0x") then r else s)
  end.
Proof.
  unfold eip55_decode. destruct s as [|a [|b r]]; try reflexivity.
  rewrite slice_first2. cbn [bind]. destruct (beq [a; b] (str "0x")).
  - rewrite (slice_from_post [a; b] r) by reflexivity. reflexivity.
  - reflexivity.
Qed.
Lemma eip55_decode_ok s a : eip55_decode s = Ok a <->
  is_bytes a /\ ((2 <= zlen s /\ to_lower s = hex_encode a) \/ exists t, s = str "0x" ++ t /\ to_lower t = hex_encode a).
Proof.
  rewrite eip55_decode_eq. destruct s as [|c [|d r]].
  - split; [discriminate|]. intros [_ [[K _]|(t & K & _)]]; [cbn in K; lia|discriminate].
  - split; [discriminate|]. intros [_ [[K _]|(t & K & _)]]; [cbn in K; lia|discriminate].
  - destruct (beq [c; d] (str "0x")) eqn:E.
    + apply beq_eq in E. injection E as -> ->. rewrite hex_decode_iff. split.
      * intros [B L]. split; [exact B|]. right. exists r. auto.
      * intros [B [[_ L]|(t & T & L)]]; split; try exact B.
        -- exfalso. assert (hex_decode (48 :: 120 :: r) = Ok a) by (apply hex_decode_iff; auto). discriminate.
        -- cbn [str app] in T. injection T as ->. exact L.
    + rewrite hex_decode_iff. split.
      * intros [B L]. split; [exact B|]. left. split; [|exact L]. rewrite !zlen_cons. pose proof (zlen_nonneg r). lia.
      * intros [B [[_ L]|(t & T & L)]]; split; try exact B; [exact L|]. exfalso. cbn [str app] in T. injection T as -> -> _.
        apply beq_neq in E. apply E. reflexivity.
Qed.
Lemma eip55_decode_panic s : eip55_decode s = Panic <-> zlen s < 2.
Proof.
  rewrite eip55_decode_eq. destruct s as [|c [|d r]]; try (split; [intros _; cbn; lia|reflexivity]).
  rewrite !zlen_cons. pose proof (zlen_nonneg r). split; [|lia]. intros K. exfalso. eapply hex_decode_not_panic; eassumption.
Qed.

(** ** has_prefix *)
Lemma has_prefix_spec p : forall s, has_prefix p s = true <-> exists r, s = p ++ r.
Proof.
  induction p as [|x p IH]; intros s; cbn [has_prefix].
  - split; [intros _; exists s; reflexivity|reflexivity].
  - destruct s as [|y s]; [split; [discriminate|intros (r & E); discriminate]|].
    rewrite andb_true_iff, IH. split.
    + intros [E (r & ->)]. exists r. cbn [app]. f_equal. lia.
    + intros (r & E). cbn [app] in E. injection E as -> ->. split; [lia|eauto].
Qed.
Lemma has_prefix_app p r : has_prefix p (p ++ r) = true.
Proof. apply has_prefix_spec. eauto. Qed.

Section S.
Variable H : alg -> bytes -> bytes.
Hypothesis HH : hashes_ok H.
Variable T : addr_type.
Variable f : bytes -> bytes.
Hypothesis HA : alphabet_ok (alphabet_of T).
Hypothesis HR : checksum_rule H (checksum_type T) f.

Lemma alpha_runes : runes (alphabet_of T) = alphabet_of T.
Proof. apply runes_ascii. destruct HA as (_ & _ & A). exact A. Qed.
Lemma key_encode k : is_bytes k -> exists m, encode_key H k T = Ok (prefix_of T ++ m) /\
  is_base58_of (alphabet_of T) (checked f k) m.
Proof.
  intros Hk. pose proof (rule_hash_ok H HH _ _ HR) as Hf. destruct (new_alphabet_accepts _ HA) as (al & Hal).
  destruct (enc_checked f Hf _ HA al Hal _ Hk) as (s & E & D & As). exists s.
  split; [|apply (base58_numeral _ al); try assumption; apply checked_bytes; assumption].
  unfold encode_key. rewrite (calc_rule H HH _ f) by assumption. cbn [bind]. unfold encode_data, cat_data.
  change (beq (str "base58") (str "base58")) with true. cbv iota. rewrite alpha_runes, Hal. cbn [bind]. fold (checked f k).
  rewrite E. reflexivity.
Qed.
Lemma key_decode m : is_bytes m ->
  match decode_key_material H m T with
  | Ok k => is_bytes k /\ is_base58_of (alphabet_of T) (checked f k) m
  | Err => forall k, is_bytes k -> ~ is_base58_of (alphabet_of T) (checked f k) m
  | Panic => False
  end.
Proof.
  intros Hm. pose proof (rule_hash_ok H HH _ _ HR) as Hf. destruct (new_alphabet_accepts _ HA) as (al & Hal).
  assert (ND : forall b, is_bytes b -> is_base58_of (alphabet_of T) b m -> base58_decode al m = Ok b).
  { intros b Hb N. destruct (base58_decode_encode _ al b HA Hal Hb) as (s' & E & D).
    rewrite (base58_of_unique _ _ _ _ N (base58_numeral _ al b s' HA Hal Hb E)). exact D. }
  unfold decode_key_material. rewrite alpha_runes, Hal. cbn [bind].
  destruct (base58_decode al m) as [r| |] eqn:D; cbn [bind].
  - destruct (base58_encode_decode _ al m r HA Hal Hm D) as [Hr E]. pose proof (base58_numeral _ al r m HA Hal Hr E) as N.
    fold (checked_body H (checksum_type T) r).
    destruct (checked_body_spec H HH _ f r HR Hr) as [(d & Hd & -> & C)|[Nc C]]; rewrite C.
    + auto.
    + intros k Hk K. apply ND in K; [|apply checked_bytes; assumption]. apply (Nc k Hk). congruence.
  - intros k Hk K. apply ND in K; [discriminate|apply checked_bytes; assumption].
  - destruct (base58_decode_never_panics _ al m HA Hal Hm) as [K _]. contradiction.
Qed.
Lemma numeral_is_bytes b s : is_bytes b -> is_base58_of (alphabet_of T) b s -> is_bytes s.
Proof.
  intros Hb N. destruct (new_alphabet_accepts _ HA) as (al & Hal).
  destruct (decode_encode _ HA al (new_alphabet_al _ al HA Hal) b Hb) as (s' & E & D & As).
  rewrite (base58_of_unique _ _ _ _ N (base58_numeral _ al b s' HA Hal Hb E)). apply ascii_bytes, As.
Qed.
Lemma key_decode_ok m k : is_bytes k -> is_base58_of (alphabet_of T) (checked f k) m -> decode_key_material H m T = Ok k.
Proof.
  intros Hk N. pose proof (rule_hash_ok H HH _ _ HR) as Hf. assert (Hc : is_bytes (checked f k)) by (apply checked_bytes; assumption).
  pose proof (numeral_is_bytes _ _ Hc N) as Hm. pose proof (key_decode m Hm) as K.
  destruct (decode_key_material H m T) as [k'| |].
  - destruct K as [Hk' N']. f_equal. apply (checked_inj f Hf); try assumption.
    destruct (new_alphabet_accepts _ HA) as (al & Hal).
    assert (Hc' : is_bytes (checked f k')) by (apply checked_bytes; assumption).
    destruct (base58_decode_encode _ al _ HA Hal Hc) as (s1 & E1 & D1). destruct (base58_decode_encode _ al _ HA Hal Hc') as (s2 & E2 & D2).
    rewrite <- (base58_of_unique _ _ _ _ N (base58_numeral _ al _ s1 HA Hal Hc E1)) in D1.
    rewrite <- (base58_of_unique _ _ _ _ N' (base58_numeral _ al _ s2 HA Hal Hc' E2)) in D2. congruence.
  - exfalso. exact (K k Hk N).
  - contradiction.
Qed.
End S.
