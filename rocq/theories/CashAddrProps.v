(** C12: Bitcoin-Cash addresses (addressEncoder/base32PolyMod). *)
From Coq Require Import String ZArith List Bool Lia ZifyBool ZifyNat.
From Verif Require Import Go GoFacts Base58Proofs Bech32Spec PolymodProofs PolymodFree Bech32Model Bech32Proofs Bech32Text CashAddrModel CashAddrProofs.
Import ListNotations.
Open Scope Z_scope.

(** Every payload (version byte and hash, any length) comes back with the version multiplied by
    eight modulo 256 and the hash unchanged. *)
Theorem cash_roundtrip : forall p v h,
  lower_prefix p -> is_bytes (v :: h) ->
  exists s, cash_encode p bech32_alphabet (v :: h) = Ok s /\ cash_decode s = Ok ((8 * v) mod 256 :: h).
Proof.
  intros p v h Hp Hb. unfold cash_encode, cash_extend. cbn [bind].
  assert (E8 : u8 (Z.shiftl v 3) = (8 * v) mod 256).
  { unfold u8. rewrite Z.shiftl_mul_pow2 by lia. f_equal. change (2 ^ 3) with 8. lia. }
  rewrite E8. set (q := (8 * v) mod 256 :: h).
  assert (Hq : is_bytes q).
  { apply is_bytes_cons in Hb. apply is_bytes_cons. split; [|apply Hb]. apply Z.mod_pos_bound. lia. }
  destruct (extend_spec q Hq) as (_ & D & _).
  set (cs := if beq p bitcoincash then cash_checksum bch_expand (extend_payload q) else zeros 8).
  assert (Dc : Forall d5 cs) by (unfold cs; destruct (beq p bitcoincash); [apply digits8_range|apply zeros_range]).
  assert (Lc : length cs = 8%nat) by (unfold cs; destruct (beq p bitcoincash); reflexivity).
  assert (Da : Forall d5 (extend_payload q ++ cs)) by (apply Forall_app; split; assumption).
  rewrite lookup_bsyms by assumption. cbn [bind]. eexists. split; [reflexivity|].
  rewrite cash_decode_structured by assumption. unfold cash_tail.
  assert (Hc : beq p bitcoincash && negb (cash_verify bch_expand (extend_payload q ++ cs)) = false).
  { unfold cs. destruct (beq p bitcoincash); [|reflexivity]. rewrite cash_verify_calc by assumption. reflexivity. }
  rewrite Hc. rewrite zlen_app. replace (zlen (extend_payload q) + zlen cs <? 8) with false.
  2: { unfold zlen. lia. }
  replace (firstn _ _) with (extend_payload q).
  - apply cash_unextend_extend; [assumption|discriminate].
  - rewrite app_length, Lc. replace (length (extend_payload q) + 8 - 8)%nat with (length (extend_payload q) + 0)%nat by lia.
    rewrite firstn_app_2. cbn. symmetry. apply app_nil_r.
Qed.

(** Consequently the round trip through encoder and decoder is the identity exactly when the
    version byte is zero... *)
Theorem cash_roundtrip_identity_iff : forall p v h s,
  lower_prefix p -> is_bytes (v :: h) -> cash_encode p bech32_alphabet (v :: h) = Ok s ->
  (cash_decode s = Ok (v :: h) <-> v = 0).
Proof.
  intros p v h s Hp Hb E. destruct (cash_roundtrip p v h Hp Hb) as (s' & E' & D). rewrite E in E'. injection E' as <-.
  rewrite D. apply is_bytes_cons in Hb. destruct Hb as [Hv _]. unfold is_byte in Hv. split; intros H.
  - assert (Hm : (8 * v) mod 256 = v) by congruence. pose proof (Z.div_mod (8 * v) 256 ltac:(lia)) as H0. rewrite Hm in H0.
    set (q := 8 * v / 256) in *. assert (7 * v = 256 * q) by lia.
    assert (0 <= q < 8) by lia. assert (q = 0) by lia. lia.
  - subst v. reflexivity.
Qed.

(** With the exact prefix, one to four substituted characters are always noticed. *)
Theorem cash_errors_detected : forall s s',
  Forall is_bech32_char s -> Forall is_bech32_char s' ->
  length s' = length s -> (length s <= 89)%nat -> (1 <= hamming s s' <= 4)%nat ->
  cash_decode (str "bitcoincash:" ++ s) <> Err -> cash_decode (str "bitcoincash:" ++ s') = Err.
Proof.
  intros s s' Hs Hs' Hl HN Hh Hok.
  destruct (bech32_chars_syms s Hs) as (a & Ha & ->). destruct (bech32_chars_syms s' Hs') as (b & Hb & ->).
  rewrite !map_length in *. rewrite hamming_syms in Hh by auto.
  assert (Hp : lower_prefix bitcoincash).
  { split; [discriminate|]. repeat constructor; cbv; congruence. }
  change (str "bitcoincash:") with (bitcoincash ++ [58]) in *. rewrite <- app_assoc in *.
  rewrite cash_decode_structured in * by assumption. unfold cash_tail in *.
  rewrite beq_refl in *. cbn [andb] in *.
  destruct (cash_verify bch_expand a) eqn:Va; [|cbn [negb] in Hok; congruence].
  rewrite (cash_verify_errors a b); auto.
Qed.

(** The text after the prefix, without a checksum test. Any other lower-case prefix, any upper-case text (including "BITCOINCASH:")
    and any text without a prefix is accepted whatever its last eight characters are. *)
Lemma cash_tail_free a c : Forall d5 a -> (2 <= length a)%nat -> length c = 8%nat ->
  cash_tail false (a ++ c) = cash_unextend a /\ exists out, cash_unextend a = Ok out.
Proof.
  intros Ha Hl Hc. unfold cash_tail. cbn [andb]. rewrite zlen_app. replace (zlen a + zlen c <? 8) with false by (unfold zlen; lia).
  replace (firstn (length (a ++ c) - 8) (a ++ c)) with a.
  2: { rewrite app_length, Hc. replace (length a + 8 - 8)%nat with (length a + 0)%nat by lia.
       rewrite firstn_app_2. cbn. symmetry. apply app_nil_r. }
  split; [reflexivity|]. destruct (split_last2 a Hl) as (ds & x & y & ->). apply Forall_app in Ha.
  destruct (cash_unextend_spec ds x y (proj1 Ha) (proj2 Ha)) as (out & E & _). eauto.
Qed.
Theorem cash_other_prefix_unchecked : forall p s,
  lower_prefix p -> p <> str "bitcoincash" -> Forall is_bech32_char s -> (2 <= length s)%nat ->
  exists out, forall c, length c = 8%nat -> Forall is_bech32_char c -> cash_decode (p ++ [58] ++ s ++ c) = Ok out.
Proof.
  intros p s Hp Hne Hs Hl. destruct (bech32_chars_syms s Hs) as (a & Ha & ->). rewrite map_length in Hl.
  destruct (cash_tail_free a (zeros 8) Ha Hl eq_refl) as (_ & out & E). exists out.
  intros c Lc Hc. destruct (bech32_chars_syms c Hc) as (b & Hb & ->). rewrite map_length in Lc.
  rewrite <- map_app. rewrite cash_decode_structured by (try apply Forall_app; auto).
  replace (beq p bitcoincash) with false by (symmetry; apply beq_neq; exact Hne).
  rewrite (proj1 (cash_tail_free a b Ha Hl Lc)). exact E.
Qed.
Theorem cash_upper_case_unchecked : forall p s,
  p <> [] -> Forall (fun c => 65 <= c <= 90) p -> Forall is_bech32_char s -> (2 <= length s)%nat ->
  exists out, forall c, length c = 8%nat -> Forall is_bech32_char c -> cash_decode (p ++ [58] ++ map upc (s ++ c)) = Ok out.
Proof.
  intros p s Hn Hp Hs Hl. destruct (bech32_chars_syms s Hs) as (a & Ha & ->). rewrite map_length in Hl.
  destruct (cash_tail_free a (zeros 8) Ha Hl eq_refl) as (_ & out & E). exists out.
  intros c Lc Hc. destruct (bech32_chars_syms c Hc) as (b & Hb & ->). rewrite map_length in Lc.
  rewrite <- map_app. rewrite cash_decode_upper by (try apply Forall_app; auto).
  rewrite (proj1 (cash_tail_free a b Ha Hl Lc)). exact E.
Qed.
(** Without a prefix the first character is dropped as well. *)
Theorem cash_bare_unchecked : forall s,
  Forall is_bech32_char s -> (2 <= length s)%nat ->
  exists out, forall c0 c, is_bech32_char c0 -> length c = 8%nat -> Forall is_bech32_char c ->
    cash_decode (c0 :: s ++ c) = Ok out.
Proof.
  intros s Hs Hl. destruct (bech32_chars_syms s Hs) as (a & Ha & ->). rewrite map_length in Hl.
  destruct (cash_tail_free a (zeros 8) Ha Hl eq_refl) as (_ & out & E). exists out.
  intros c0 c H0 Lc Hc. destruct (bech32_chars_syms c Hc) as (b & Hb & ->). rewrite map_length in Lc.
  destruct (bech32_char_sym c0 H0) as (d0 & Hd0 & ->).
  rewrite <- map_app. change (bsym d0 :: map bsym (a ++ b)) with (map bsym (d0 :: a ++ b)).
  rewrite cash_decode_bare by (try apply Forall_app; auto).
  rewrite (proj1 (cash_tail_free a b Ha Hl Lc)). exact E.
Qed.
(** Short texts crash the decoder: fewer than eight characters after the prefix that pass the
    checks, and an empty string. *)
Theorem cash_short_panics : forall p s,
  lower_prefix p -> p <> str "bitcoincash" -> Forall is_bech32_char s -> (length s <= 9)%nat ->
  cash_decode (p ++ [58] ++ s) = Panic.
Proof.
  intros p s Hp Hne Hs Hl. destruct (bech32_chars_syms s Hs) as (a & Ha & ->). rewrite map_length in Hl.
  rewrite cash_decode_structured by assumption. unfold cash_tail.
  replace (beq p bitcoincash) with false by (symmetry; apply beq_neq; exact Hne). cbn [andb].
  destruct (Z.ltb_spec (zlen a) 8) as [|H8]; [reflexivity|]. unfold zlen in H8.
  assert (length a = 8 \/ length a = 9)%nat as [E|E] by lia.
  - rewrite E. change (8 - 8)%nat with 0%nat. cbn [firstn]. reflexivity.
  - rewrite E. change (9 - 8)%nat with 1%nat. destruct a as [|x a]; [discriminate|]. cbn [firstn]. reflexivity.
Qed.

(** The hypotheses are met by a real main-net address. *)
Definition cash_hash : list Z :=
  [118; 160; 64; 83; 189; 160; 168; 139; 218; 81; 119; 184; 106; 21; 195; 178; 159; 85; 152; 115].
Example cash_known_vector :
  cash_encode (str "bitcoincash") bech32_alphabet (0 :: cash_hash) =
    Ok (str "bitcoincash:qpm2qsznhks23z7629mms6s4cwef74vcwvy22gdx6a") /\
  cash_decode (str "bitcoincash:qpm2qsznhks23z7629mms6s4cwef74vcwvy22gdx6a") = Ok (0 :: cash_hash).
Proof. vm_compute. split; reflexivity. Qed.
Example cash_p2sh_version_changes :
  cash_decode (match cash_encode (str "bitcoincash") bech32_alphabet (1 :: cash_hash) with Ok s => s | _ => [] end) = Ok (8 :: cash_hash).
Proof. vm_compute. reflexivity. Qed.
Example cash_error_example :
  cash_decode (str "bitcoincash:qpm2qsznhks23z7629mms6s4cwef74vcwvy22gdx6q") = Err /\
  cash_decode (str "BITCOINCASH:QPM2QSZNHKS23Z7629MMS6S4CWEF74VCWVY22GDX6Q") = Ok (0 :: cash_hash) /\
  cash_decode (str "bchtest:qpm2qsznhks23z7629mms6s4cwef74vcwvqqqqqqqq") = Ok (0 :: cash_hash).
Proof. vm_compute. repeat split; reflexivity. Qed.

Print Assumptions cash_roundtrip.
Print Assumptions cash_roundtrip_identity_iff.
Print Assumptions cash_errors_detected.
Print Assumptions cash_other_prefix_unchecked.
Print Assumptions cash_upper_case_unchecked.
Print Assumptions cash_bare_unchecked.
Print Assumptions cash_short_panics.
