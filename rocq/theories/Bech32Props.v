(** C10, C11: the bech32 address codec (addressEncoder/bech32, btcTransaction/bech32.go and copies). *)
From Coq Require Import String ZArith List Bool Lia ZifyBool ZifyNat.
From Verif Require Import Go GoFacts Base58Proofs Bech32Spec PolymodProofs PolymodFree Bech32Model Bech32Proofs Bech32Text.
Import ListNotations.
Open Scope Z_scope.

(** C10. A 20-byte hash survives, with no version prefix or with any one 5-bit version. *)
Theorem bech32_roundtrip_20 : forall p h pp,
  lower_prefix p -> is_bytes h -> length h = 20%nat ->
  (pp = None \/ exists v, 0 <= v < 32 /\ pp = Some [v]) ->
  exists s, bech32_encode p bech32_alphabet h pp = Ok s /\ address_decode_bech32 s = Ok h.
Proof.
  intros p h pp Hp Hb Hl Hpp.
  assert (Hq : exists q, Forall d5 q /\ (length q <= 1)%nat /\
    bech32_encode p bech32_alphabet h pp = bech32_encode p bech32_alphabet h (Some q)).
  { destruct Hpp as [->|(v & Hv & ->)].
    - exists []. split; [constructor|]. split; [cbn; lia|apply encode_none].
    - exists [v]. split; [repeat constructor; lia|]. split; [cbn; lia|reflexivity]. }
  destruct Hq as (q & Hq & Hq1 & ->). eexists. split; [apply encode_eq; auto; apply Hp|].
  unfold address_decode_bech32. rewrite decode_encoded by assumption.
  rewrite unextend_20 by assumption. cbn [bind].
  assert (E : zlen h = 20) by (unfold zlen; lia). rewrite E. cbn [Z.eqb Pos.eqb bind]. rewrite E. reflexivity.
Qed.

(** C10. A 32-byte hash survives when it is preceded by a version. *)
Theorem bech32_roundtrip_32 : forall p h v,
  lower_prefix p -> is_bytes h -> length h = 32%nat -> 0 <= v < 32 ->
  exists s, bech32_encode p bech32_alphabet h (Some [v]) = Ok s /\ address_decode_bech32 s = Ok h.
Proof.
  intros p h v Hp Hb Hl Hv.
  assert (Hq : Forall d5 [v]) by (repeat constructor; apply Hv).
  eexists. split; [apply encode_eq; auto; apply Hp|].
  unfold address_decode_bech32. rewrite decode_encoded by assumption.
  destruct (unextend_32 h v Hb Hl Hv) as (out & -> & E33 & E). cbn [bind]. rewrite E33. cbn [Z.eqb Pos.eqb].
  rewrite E. cbn [bind]. assert (E32 : zlen h = 32) by (unfold zlen; lia). rewrite E32. reflexivity.
Qed.

(** C10. Without a version, a 32-byte hash comes back multiplied by 16 modulo 2^256, so it is
    recovered only when it is zero. *)
Theorem bech32_32_without_version : forall p h,
  lower_prefix p -> is_bytes h -> length h = 32%nat ->
  exists s out, bech32_encode p bech32_alphabet h None = Ok s /\ address_decode_bech32 s = Ok out /\
    be_num out = (16 * be_num h) mod 2 ^ 256 /\ (out = h <-> h = zeros 32).
Proof.
  intros p h Hp Hb Hl.
  destruct (unextend_32_none h Hb Hl) as (out & E & B & L & V).
  exists (p ++ [49] ++ map bsym (([] ++ extend_payload h) ++ calc_checksum p ([] ++ extend_payload h))), out.
  assert (E32 : zlen out = 32) by (unfold zlen; lia).
  split; [rewrite encode_none; apply encode_eq; auto; apply Hp|].
  split.
  - unfold address_decode_bech32. rewrite decode_encoded by (try assumption; constructor).
    cbn [app]. rewrite E. cbn [bind]. rewrite E32. cbn [Z.eqb Pos.eqb bind]. rewrite E32. reflexivity.
  - split; [exact V|]. pose proof (be_num_bound h Hb) as Hbd.
    replace (zlen h) with 32 in Hbd by (unfold zlen; lia). change (256 ^ 32) with (2 ^ 256) in Hbd.
    split; intros H.
    + subst out. apply be_num_inj; [assumption|apply is_bytes_zeros|exact Hl|].
      change (be_num (zeros 32)) with 0.
      pose proof (Z.div_mod (16 * be_num h) (2 ^ 256) ltac:(apply Z.pow_nonzero; lia)) as DM. rewrite <- V in DM.
      set (q := 16 * be_num h / 2 ^ 256) in *.
      assert (E15 : 15 * be_num h = 2 ^ 256 * q) by lia.
      (* 15 is invertible modulo 2^256 and the quotient is below 16: only multiples of 15 remain *)
      assert (Hq : 0 <= q < 16).
      { split; [apply Z.div_pos; [lia|apply Z.pow_pos_nonneg; lia]|].
        apply Z.div_lt_upper_bound; [apply Z.pow_pos_nonneg; lia|lia]. }
      assert (Hm : (2 ^ 256 * q) mod 15 = 0) by (rewrite <- E15, Z.mul_comm; apply Z_mod_mult).
      rewrite <- Zmult_mod_idemp_l in Hm. change (2 ^ 256 mod 15) with 1 in Hm. rewrite Z.mul_1_l in Hm.
      assert (q = 0 \/ q = 15).
      { destruct (Z.eq_dec q 15); [right; assumption|]. rewrite Z.mod_small in Hm by lia. left; assumption. }
      destruct H as [->| ->]; lia.
    + subst h. apply be_num_inj; [assumption|apply is_bytes_zeros|exact L|].
      rewrite V. reflexivity.
Qed.

(** C11. At most four substituted characters (out of at most 89 after the separator) turn an
    accepted text, or one that passes the checksum test, into a rejected one. *)
Theorem bech32_errors_detected : forall p s s',
  lower_prefix p -> Forall is_bech32_char s -> Forall is_bech32_char s' ->
  length s' = length s -> (length s <= 89)%nat -> (1 <= hamming s s' <= 4)%nat ->
  bech32_decode (p ++ [49] ++ s) <> Err -> bech32_decode (p ++ [49] ++ s') = Err.
Proof.
  intros p s s' Hp Hs Hs' Hl HN Hh Hok.
  destruct (bech32_chars_syms s Hs) as (a & Ha & ->). destruct (bech32_chars_syms s' Hs') as (b & Hb & ->).
  rewrite !map_length in *. rewrite hamming_syms in Hh by auto.
  rewrite decode_structured in * by assumption. unfold decode_tail in *.
  destruct (verify_checksum p a) eqn:Va; [|cbn [negb] in Hok; congruence].
  rewrite (verify_errors p a b); auto. apply Hp.
Qed.

(** C11. The text produced by the encoder always passes the decoder's checksum test: it is
    never rejected with the invalid-address error. *)
Theorem bech32_encoder_output_not_rejected : forall p h pp,
  lower_prefix p -> is_bytes h -> Forall (fun v => 0 <= v < 32) pp ->
  exists s, bech32_encode p bech32_alphabet h (Some pp) = Ok s /\
    ((2 <= length pp + length h)%nat -> exists out, bech32_decode s = Ok out).
Proof.
  intros p h pp Hp Hb Hpp. eexists. split; [apply encode_eq; auto; apply Hp|]. intros Hn.
  rewrite decode_encoded by assumption.
  destruct (extend_spec h Hb) as (L & D & _ & Hpad).
  destruct (unextend_spec (pp ++ extend_payload h)) as (out & E & B & Lo & _).
  - rewrite app_length. unfold zlen in *. lia.
  - apply Forall_app; split; assumption.
  - rewrite E. cbn [bind]. destruct (Z.eqb_spec (zlen out) 33) as [E33|_]; [|eauto].
    assert (E66 : zlen (hex_encode out) = 66) by (rewrite zlen_hex_encode; lia).
    destruct (slice_total (hex_encode out) 1 65 ltac:(lia) ltac:(lia)) as (h' & Eh). rewrite Eh. cbn [bind].
    apply slice_ok in Eh. destruct Eh as (_ & _ & x & y & Ex & Lx & Ly).
    destruct (hex_decode h') as [o| |] eqn:Eo; [eauto| |exfalso; eapply hex_decode_not_panic; eassumption].
    exfalso. revert Eo. clear - Ex Lx Ly E66 B. 
    (* the 64 characters are hexadecimal digits *)
    assert (Hh : Forall (fun c => exists v, 0 <= v < 16 /\ c = hex_digit v) (hex_encode out)).
    { rewrite hex_nibbles. apply Forall_map. eapply Forall_impl; [|apply nibbles_digits; exact B].
      intros v Hv. exists v. split; [exact Hv|reflexivity]. }
    rewrite Ex in Hh. apply Forall_app in Hh. destruct Hh as [_ Hh]. apply Forall_app in Hh. destruct Hh as [Hh _].
    assert (Hev : exists k, length h' = (2 * k)%nat).
    { exists 32%nat. unfold zlen in *. lia. }
    clear - Hh Hev. revert Hev. induction h' as [| |c c' r IH] using pair_ind; intros [k Hk] E.
    + discriminate.
    + cbn in Hk. lia.
    + inversion Hh as [|? ? (v & Hv & ->) H1]; subst. inversion H1 as [|? ? (w & Hw & ->) H2]; subst.
      cbn [hex_decode] in E. rewrite !hex_val_digit in E by assumption.
      destruct (hex_decode r) eqn:Er; try discriminate.
      apply (IH H2); [exists (k - 1)%nat; cbn in Hk; lia|reflexivity].
Qed.

(** C10. A correctly checksummed text with no payload crashes the decoder. *)
Theorem bech32_empty_payload_panics : forall p, lower_prefix p ->
  exists s, bech32_encode p bech32_alphabet [] None = Ok s /\ bech32_decode s = Panic.
Proof.
  intros p Hp. eexists. split; [rewrite encode_none; apply encode_eq; auto; [apply Hp|constructor]|].
  rewrite decode_encoded by (try assumption; constructor). reflexivity.
Qed.

(** A digit before the separator is always refused. *)
Theorem bech32_digit_in_prefix_rejected : forall a d b,
  48 <= d <= 57 -> In d a -> bech32_decode (a ++ [49] ++ b) = Err.
Proof.
  intros a d b Hd Hin. unfold bech32_decode.
  enough (H : forall i lo up hn ps, 0 <= i -> 0 <= ps -> (In d a \/ hn = true \/ ps <> 0) -> scan (a ++ [49] ++ b) i lo up hn ps = Err).
  { rewrite H by (try lia; auto). reflexivity. }
  clear Hin. induction a as [|c a IH]; intros i lo up hn ps Hi Hps Hin.
  - cbn [app scan].
    replace ((97 <=? 49) && (49 <=? 122)) with false by reflexivity.
    replace ((65 <=? 49) && (49 <=? 90)) with false by reflexivity.
    replace ((49 =? 48) || ((50 <=? 49) && (49 <=? 57))) with false by reflexivity.
    change (49 =? 49) with true. cbv iota.
    destruct Hin as [[]|[->|Hne]]; [reflexivity|].
    replace (negb (ps =? 0)) with true by lia. rewrite orb_true_r. reflexivity.
  - cbn [app scan].
    destruct ((97 <=? c) && (c <=? 122)) eqn:E1; [apply IH; try lia; destruct Hin as [[->|H]|H]; [lia|tauto|tauto]|].
    destruct ((65 <=? c) && (c <=? 90)) eqn:E2; [apply IH; try lia; destruct Hin as [[->|H]|H]; [lia|tauto|tauto]|].
    destruct ((c =? 48) || ((50 <=? c) && (c <=? 57))) eqn:E3; [apply IH; try lia; auto|].
    destruct (c =? 49) eqn:E4; [|reflexivity].
    destruct (hn || (i =? 0) || negb (ps =? 0)) eqn:E5; [reflexivity|].
    apply IH; lia.
Qed.

(** *** Concrete cases *)
Example lower_bc : lower_prefix (str "bc").
Proof. split; [discriminate|repeat constructor; cbn; lia]. Qed.
Example bech32_bip173_vector :
  bech32_encode (str "bc") bech32_alphabet
    [0x75;0x1e;0x76;0xe8;0x19;0x91;0x96;0xd4;0x54;0x94;0x1c;0x45;0xd1;0xb3;0xa3;0x23;0xf1;0x43;0x3b;0xd6] (Some [0])
  = Ok (str "bc1qw508d6qejxtdg4y5r3zarvary0c5xw7kv8f3t4").
Proof. vm_compute. reflexivity. Qed.
Example bech32_bip173_decode :
  address_decode_bech32 (str "bc1qw508d6qejxtdg4y5r3zarvary0c5xw7kv8f3t4") =
  Ok [0x75;0x1e;0x76;0xe8;0x19;0x91;0x96;0xd4;0x54;0x94;0x1c;0x45;0xd1;0xb3;0xa3;0x23;0xf1;0x43;0x3b;0xd6].
Proof. vm_compute. reflexivity. Qed.
Example bech32_error_instance :
  let s := str "qw508d6qejxtdg4y5r3zarvary0c5xw7kv8f3t4" in
  let s' := str "qw508d6qejxtdg4y5r3zarvary0c5xw7kv8f3tq" in
  Forall is_bech32_char s' /\ hamming s s' = 1%nat /\ bech32_decode (str "bc" ++ [49] ++ s) <> Err /\
  bech32_decode (str "bc" ++ [49] ++ s') = Err.
Proof.
  cbv zeta. split; [|split; [reflexivity|split; [vm_compute; congruence|vm_compute; reflexivity]]].
  apply Forall_forall. intros c H. unfold is_bech32_char. cbn in H.
  repeat (destruct H as [<-|H]; [cbn; tauto|]). destruct H.
Qed.
Example bech32_empty_text : bech32_decode (str "a12uel5l") = Panic.
Proof. vm_compute. reflexivity. Qed.

Print Assumptions bech32_roundtrip_20.
Print Assumptions bech32_roundtrip_32.
Print Assumptions bech32_32_without_version.
Print Assumptions bech32_errors_detected.
Print Assumptions bech32_encoder_output_not_rejected.
Print Assumptions bech32_empty_payload_panics.
Print Assumptions bech32_digit_in_prefix_rejected.
