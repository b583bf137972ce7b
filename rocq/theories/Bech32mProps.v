(** Properties C13, C14 and C66: bech32m texts, bit regrouping, bytom segwit addresses. *)
From Coq Require Import String ZArith List Bool Lia ZifyBool ZifyNat.
From Verif Require Import Go GoFacts GoFacts2 Base58Spec Base58Proofs Bech32Spec PolymodProofs PolymodFree Bech32Model Bech32Proofs Bech32Text
  Bech32mModel ConvertBitsProofs Bech32mProofs.
Import ListNotations.
Open Scope Z_scope.
Ltac Zify.zify_post_hook ::= idtac.

(** ** C14: bit regrouping *)
(** 8 -> 5 with padding: [p] < 5 zero bits are appended and the same big number is written in base 32. *)
Theorem convertbits_8_5_value data : is_bytes data ->
  exists out p, convertbits data 8 5 true = Ok out /\ bytom_convertbits data 8 5 true = Ok out /\
    0 <= p < 5 /\ 5 * zlen out = 8 * zlen data + p /\
    Forall (fun d => 0 <= d < 32) out /\ positional 32 out = positional 256 data * 2 ^ p.
Proof.
  intros H. destruct (convertbits_pad 8 5 data ltac:(lia) ltac:(lia) H) as (ys & bits & rem & R & E).
  destruct (bytom_convertbits_pad 8 5 data ltac:(lia) ltac:(lia) H) as (ys' & bits' & rem' & R' & E').
  destruct (pad_value 8 5 data ys bits rem ltac:(lia) R) as (p & Hp & L & V).
  destruct (pad_value 8 5 data ys' bits' rem' ltac:(lia) R') as (p' & Hp' & L' & V').
  pose proof (pad_digits 8 5 _ _ _ _ ltac:(lia) R) as D. pose proof (pad_digits 8 5 _ _ _ _ ltac:(lia) R') as D'.
  assert (Q : zlen (pad_out 5 ys bits rem) = zlen (pad_out 5 ys' bits' rem') /\ p = p').
  { set (a := zlen (pad_out 5 ys bits rem)) in *. set (b := zlen (pad_out 5 ys' bits' rem')) in *. clearbody a b.
    clear - Hp Hp' L L'. lia. }
  destruct Q as (Q1 & <-).
  assert (Q : pad_out 5 ys bits rem = pad_out 5 ys' bits' rem').
  { apply (bval_inj (2 ^ 5)); [cbn; lia|exact D|exact D'|unfold zlen in Q1; lia|]. rewrite V, V'. reflexivity. }
  exists (pad_out 5 ys bits rem), p. rewrite E', <- Q. split; [exact E|]. split; [reflexivity|].
  split; [exact Hp|]. split; [exact L|]. split; [exact D|]. rewrite !positional_bval. exact V.
Qed.
Theorem convertbits_roundtrip data : is_bytes data ->
  exists out, convertbits data 8 5 true = Ok out /\ convertbits out 5 8 false = Ok data.
Proof.
  intros H. destruct (convertbits_pad 8 5 data ltac:(lia) ltac:(lia) H) as (ys & bits & rem & R & E).
  exists (pad_out 5 ys bits rem). split; [exact E|].
  destruct (convertbits_nopad 5 8 (pad_out 5 ys bits rem) ltac:(lia) ltac:(lia) (pad_digits 8 5 _ _ _ _ ltac:(lia) R)) as (zs & b' & r' & R' & E').
  destruct (regroup_back data ys bits rem zs b' r' H R R') as (Hb & -> & ->).
  rewrite E'. replace (5 <=? b') with false by lia. reflexivity.
Qed.
Theorem bytom_convertbits_roundtrip data : is_bytes data ->
  exists out, bytom_convertbits data 8 5 true = Ok out /\ bytom_convertbits out 5 8 false = Ok data.
Proof.
  intros H. destruct (bytom_convertbits_pad 8 5 data ltac:(lia) ltac:(lia) H) as (ys & bits & rem & R & E).
  exists (pad_out 5 ys bits rem). split; [exact E|].
  destruct (bytom_convertbits_nopad 5 8 (pad_out 5 ys bits rem) ltac:(lia) ltac:(lia) (pad_digits 8 5 _ _ _ _ ltac:(lia) R)) as (zs & b' & r' & R' & E').
  destruct (regroup_back data ys bits rem zs b' r' H R R') as (Hb & -> & ->).
  rewrite E'. replace (4 <? b') with false by lia. reflexivity.
Qed.
(** What 5 -> 8 accepts converts back to exactly the same 5-bit string ... *)
Theorem convertbits_accepted_canonical ds data : Forall (fun d => 0 <= d < 32) ds ->
  convertbits ds 5 8 false = Ok data -> is_bytes data /\ convertbits data 8 5 true = Ok ds.
Proof.
  intros H E. destruct (convertbits_nopad 5 8 ds ltac:(lia) ltac:(lia) H) as (zs & b & r & R & E').
  rewrite E in E'. destruct (Z.leb_spec 5 b); [discriminate|]. destruct (Z.eqb_spec r 0) as [->|]; [|discriminate].
  injection E' as <-. assert (Db : digits (2 ^ 8) data) by apply R. split; [exact Db|].
  destruct (convertbits_pad 8 5 data ltac:(lia) ltac:(lia) Db) as (ys & b' & r' & R' & ->).
  f_equal. apply (regroup_fwd ds data b ys b' r'); assumption.
Qed.
Theorem bytom_convertbits_accepted_canonical ds data : Forall (fun d => 0 <= d < 32) ds ->
  bytom_convertbits ds 5 8 false = Ok data -> is_bytes data /\ bytom_convertbits data 8 5 true = Ok ds.
Proof.
  intros H E. destruct (bytom_convertbits_nopad 5 8 ds ltac:(lia) ltac:(lia) H) as (zs & b & r & R & E').
  rewrite E in E'. destruct (Z.ltb_spec 4 b); [discriminate|]. destruct (Z.eqb_spec r 0) as [->|]; [|discriminate].
  injection E' as <-. assert (Db : digits (2 ^ 8) data) by apply R. split; [exact Db|].
  destruct (bytom_convertbits_pad 8 5 data ltac:(lia) ltac:(lia) Db) as (ys & b' & r' & R' & ->).
  f_equal. apply (regroup_fwd ds data b ys b' r'); try assumption. lia.
Qed.
(** ... so two different accepted 5-bit strings never give the same bytes. *)
Theorem convertbits_5_8_injective a b data : Forall (fun d => 0 <= d < 32) a -> Forall (fun d => 0 <= d < 32) b ->
  convertbits a 5 8 false = Ok data -> convertbits b 5 8 false = Ok data -> a = b.
Proof.
  intros Ha Hb Ea Eb. apply convertbits_accepted_canonical in Ea; [|assumption]. apply convertbits_accepted_canonical in Eb; [|assumption].
  destruct Ea as [_ Ea], Eb as [_ Eb]. congruence.
Qed.

(** ** C13: bech32m *)
Theorem bech32m_roundtrip hrp data : hrp_ok hrp -> is_bytes data -> zlen hrp + (8 * zlen data + 4) / 5 + 7 <= 90 ->
  exists s, bech32m_encode hrp data bech32_alphabet = Ok s /\ bech32m_decode s hrp bech32_alphabet = Ok (Some data).
Proof.
  intros Hh Hd Hl. destruct (convertbits_roundtrip data Hd) as (out & E & Eb).
  destruct (convertbits_8_5_value data Hd) as (out' & p & E' & _ & Hp & L & D & _). rewrite E in E'. injection E' as <-.
  assert (Hq : zlen out = (8 * zlen data + 4) / 5).
  { apply (Z.div_unique _ 5 _ (4 - p)); lia. }
  eexists. split; [unfold bech32m_encode; rewrite E; apply bm_encode_text; exact D|].
  unfold bech32m_decode. rewrite bm_decode_encode by (assumption || lia). cbn [bind]. rewrite beq_refl. cbn [negb].
  rewrite Eb. reflexivity.
Qed.
(** A text made for another human-readable part: no data, and no error either. *)
Theorem bech32m_wrong_hrp_silent hrp other data s : hrp_ok hrp -> is_bytes data -> zlen hrp + (8 * zlen data + 4) / 5 + 7 <= 90 ->
  other <> hrp -> bech32m_encode hrp data bech32_alphabet = Ok s -> bech32m_decode s other bech32_alphabet = Ok None.
Proof.
  intros Hh Hd Hl Ho Es.
  destruct (convertbits_8_5_value data Hd) as (out & p & E & _ & Hp & L & D & _).
  assert (Hq : zlen out = (8 * zlen data + 4) / 5) by (apply (Z.div_unique _ 5 _ (4 - p)); lia).
  unfold bech32m_encode in Es. rewrite E in Es. cbn [bind] in Es. rewrite bm_encode_text in Es by exact D. injection Es as <-.
  unfold bech32m_decode. rewrite bm_decode_encode by (assumption || lia). cbn [bind].
  destruct (beq hrp other) eqn:B; [apply beq_eq in B; congruence|]. reflexivity.
Qed.
(** A text with a valid plain-bech32 checksum: no data, and no error either. *)
Theorem bech32m_plain_checksum_silent hrp ds s : hrp_ok hrp -> Forall (fun d => 0 <= d < 32) ds -> zlen hrp + zlen ds + 7 <= 90 ->
  bm_encode hrp ds Bech32 bech32_alphabet = Ok s -> bech32m_decode s hrp bech32_alphabet = Ok None.
Proof.
  intros Hh D Hl Es. rewrite bm_encode_text in Es by exact D. injection Es as <-.
  unfold bech32m_decode. rewrite bm_decode_encode by (assumption || lia). cbn [bind]. rewrite beq_refl. reflexivity.
Qed.
(** One to four wrong data characters in a text that decodes never give another text that decodes to data. *)
Theorem bech32m_errors_detected hrp a b data data' : hrp_ok hrp -> Forall is_bech32_char a -> Forall is_bech32_char b ->
  length a = length b -> (0 < hamming a b <= 4)%nat ->
  bech32m_decode (hrp ++ [49] ++ a) hrp bech32_alphabet = Ok (Some data) ->
  bech32m_decode (hrp ++ [49] ++ b) hrp bech32_alphabet <> Ok (Some data').
Proof.
  intros Hh Ha Hb Hl Hm Ea Eb.
  destruct (bech32_chars_syms a Ha) as (da & Da & ->). destruct (bech32_chars_syms b Hb) as (db & Db & ->).
  rewrite !map_length in Hl. rewrite hamming_syms in Hm by assumption.
  assert (L90 : zlen (text hrp da) <= 90).
  { unfold bech32m_decode, bm_decode in Ea. fold (text hrp da) in Ea. destruct (Z.ltb_spec 90 (zlen (text hrp da))); [discriminate|lia]. }
  assert (Lt : forall ds, zlen (text hrp ds) = zlen hrp + 1 + zlen ds).
  { intros. unfold text. rewrite zlen_app. cbn [app]. rewrite zlen_cons, zlen_map. lia. }
  assert (Hz : 0 < zlen hrp).
  { destruct Hh as [Hn _]. destruct hrp; [congruence|]. rewrite zlen_cons. pose proof (zlen_nonneg hrp). lia. }
  assert (L6 : (6 <= length da)%nat).
  { destruct (Nat.le_gt_cases 6 (length da)) as [G|G]; [exact G|]. exfalso.
    unfold bech32m_decode, bm_decode in Ea. fold (text hrp da) in Ea.
    replace (90 <? zlen (text hrp da)) with false in Ea by lia.
    assert (El : to_lower (text hrp da) = text hrp da).
    { unfold text. rewrite !to_lower_app, to_lower_hrp, to_lower_syms by (try assumption; apply Hh). reflexivity. }
    rewrite El, beq_refl in Ea. cbn [negb andb] in Ea. cbv zeta in Ea.
    assert (Ei : last_index 49 (text hrp da) = zlen hrp) by (apply last_index_mid, no_one; assumption).
    rewrite Ei, Lt in Ea. replace (zlen hrp <? 1) with false in Ea by lia.
    replace (zlen hrp + 1 + zlen da <? zlen hrp + 7) with true in Ea by (unfold zlen; lia). discriminate. }
  fold (text hrp da) in Ea. fold (text hrp db) in Eb. unfold bech32m_decode in *.
  rewrite bm_decode_text in Ea by assumption. rewrite bm_decode_text in Eb; [|assumption|assumption|lia|].
  2: { rewrite Lt in L90 |- *. unfold zlen in *. lia. }
  destruct (bm_verify hrp da) as [[|]|] eqn:Va; cbn [bind] in Ea; [rewrite beq_refl in Ea; discriminate| |discriminate].
  destruct (bm_verify hrp db) as [[|]|] eqn:Vb; cbn [bind] in Eb; [rewrite beq_refl in Eb; discriminate| |discriminate].
  refine (verify_variant_errors hrp da db _ Da Db Hl _ Hm Bech32m Va Vb); [apply Hh|].
  rewrite Lt in L90. unfold zlen in *. lia.
Qed.

(** ** C66: bytom segwit addresses *)
Theorem bytom_segwit_roundtrip hrp version program : hrp_ok hrp -> is_bytes program -> 0 <= version <= 16 ->
  2 <= zlen program <= 40 -> (version = 0 -> zlen program = 20 \/ zlen program = 32) ->
  zlen hrp + (8 * zlen program + 4) / 5 + 8 <= 90 ->
  exists s, bytom_encode_segwit hrp version program = Ok s /\ bytom_decode_segwit s = Ok (version, program).
Proof.
  intros Hh Hd Hv Hn H0 Hl. destruct (bytom_convertbits_roundtrip program Hd) as (out & E & Eb).
  destruct (convertbits_8_5_value program Hd) as (out' & p & _ & E' & Hp & L & D & _). rewrite E in E'. injection E' as <-.
  assert (Hq : zlen out = (8 * zlen program + 4) / 5) by (apply (Z.div_unique _ 5 _ (4 - p)); lia).
  assert (D' : Forall d5 (version :: out)) by (constructor; [unfold d5; lia|exact D]).
  assert (Ed : bytom_decode_segwit (text hrp ((version :: out) ++ bm_checksum hrp (version :: out) Bech32)) = Ok (version, program)).
  { unfold bytom_decode_segwit. rewrite bytom_decode_encode by (try assumption; rewrite zlen_cons; lia). cbn [bind].
    rewrite zlen_cons. pose proof (zlen_nonneg out). replace (1 + zlen out <? 1) with false by lia.
    change (idx (version :: out) 0) with (Ok version). cbn [bind]. replace (16 <? version) with false by lia.
    assert (Es : slice_from (version :: out) 1 = Ok out) by apply slice_from_cons. rewrite Es. cbn [bind].
    rewrite Eb. cbn [bind]. replace ((zlen program <? 2) || (40 <? zlen program)) with false by lia.
    replace ((version =? 0) && negb (zlen program =? 20) && negb (zlen program =? 32)) with false by lia. reflexivity. }
  eexists. split; [|exact Ed].
  unfold bytom_encode_segwit. rewrite E. cbn [bind]. rewrite bytom_encode_text by exact D'. cbn [bind].
  rewrite Ed. cbn [bind]. rewrite Z.eqb_refl, beq_refl. reflexivity.
Qed.
(** Whatever the decoder accepts is, up to letter case, the one text the encoder produces for the decoded
    version and program under the text's own human-readable part. *)
Theorem bytom_segwit_accepted_canonical s version program : bytom_decode_segwit s = Ok (version, program) ->
  exists hrp, hrp_ok hrp /\ bytom_encode_segwit hrp version program = Ok (to_lower s) /\
    0 <= version <= 16 /\ 2 <= zlen program <= 40 /\ (version = 0 -> zlen program = 20 \/ zlen program = 32).
Proof.
  intros Ed. assert (Ed0 := Ed). unfold bytom_decode_segwit in Ed. apply bind_ok in Ed. destruct Ed as ((h, data) & E1 & Ed).
  apply bytom_decode_inv in E1. destruct E1 as (Hh & Dd & L90 & Et).
  destruct (zlen data <? 1) eqn:Ez; [discriminate|]. destruct data as [|v rest]; [discriminate|].
  change (idx (v :: rest) 0) with (Ok v) in Ed. cbn [bind] in Ed.
  destruct (16 <? v) eqn:E16; [discriminate|].
  assert (Es : slice_from (v :: rest) 1 = Ok rest) by apply slice_from_cons. rewrite Es in Ed. cbn [bind] in Ed.
  apply bind_ok in Ed. destruct Ed as (prog & Ec & Ed).
  destruct ((zlen prog <? 2) || (40 <? zlen prog)) eqn:E40; [discriminate|].
  destruct ((v =? 0) && negb (zlen prog =? 20) && negb (zlen prog =? 32)) eqn:E0; [discriminate|].
  injection Ed as <- <-. inversion Dd as [|? ? Hv Dr]; subst. unfold d5 in Hv.
  destruct (bytom_convertbits_accepted_canonical rest prog Dr Ec) as (Hp & Eb).
  exists h. split; [exact Hh|]. split; [|lia].
  unfold bytom_encode_segwit. rewrite Eb. cbn [bind]. rewrite bytom_encode_text by (constructor; [exact Hv|exact Dr]). cbn [bind].
  rewrite <- Et.
  assert (Edl : bytom_decode_segwit (to_lower s) = Ok (v, prog)).
  { rewrite Et. unfold bytom_decode_segwit. rewrite bytom_decode_encode; [|exact Hh|exact Dd|].
    - cbn [bind]. rewrite Ez. change (idx (v :: rest) 0) with (Ok v). cbn [bind]. rewrite E16, Es. cbn [bind]. rewrite Ec. cbn [bind].
      rewrite E40, E0. reflexivity.
    - assert (Lt : zlen (to_lower s) = zlen s) by apply zlen_map. rewrite Et in Lt. unfold text in Lt.
      rewrite zlen_app in Lt. cbn [app] in Lt. rewrite zlen_cons, zlen_map in Lt. rewrite (app_comm_cons rest _ v), zlen_app in Lt.
      change (zlen (bm_checksum h (v :: rest) Bech32)) with 6 in Lt. lia. }
  rewrite Edl. cbn [bind]. rewrite Z.eqb_refl, beq_refl. reflexivity.
Qed.
(** Two lower-case texts of the same human-readable part with the same decoding are equal. *)
Theorem bytom_bech32_decode_injective s s' h d : bytom_decode s = Ok (h, d) -> bytom_decode s' = Ok (h, d) -> to_lower s = to_lower s'.
Proof.
  intros E E'. apply bytom_decode_inv in E. apply bytom_decode_inv in E'. destruct E as (_ & _ & _ & ->), E' as (_ & _ & _ & ->). reflexivity.
Qed.
(** Letter case carries no information, and mixed case is rejected. *)
Theorem bytom_decode_mixed_case s : (exists c, In c s /\ 65 <= c <= 90) -> (exists c, In c s /\ 97 <= c <= 122) -> bytom_decode s = Err.
Proof.
  intros (u & Hu & Ru) (l & Hl & Rl). unfold bytom_decode.
  destruct ((zlen s <? 8) || (90 <? zlen s)); [reflexivity|]. destruct (existsb _ s); [reflexivity|].
  assert (A : beq s (to_lower s) = false).
  { destruct (beq s (to_lower s)) eqn:B; [|reflexivity]. apply beq_eq in B. exfalso. clear - B Hu Ru.
    induction s as [|c s IH]; [destruct Hu|]. unfold to_lower in B. cbn [map] in B. injection B as B1 B2.
    destruct Hu as [->|Hu]; [|apply IH; assumption]. unfold lower_char in B1.
    replace ((65 <=? u) && (u <=? 90)) with true in B1 by lia. lia. }
  assert (C : beq s (to_upper s) = false).
  { destruct (beq s (to_upper s)) eqn:B; [|reflexivity]. apply beq_eq in B. exfalso. clear - B Hl Rl.
    induction s as [|c s IH]; [destruct Hl|]. unfold to_upper in B. cbn [map] in B. injection B as B1 B2.
    destruct Hl as [->|Hl]; [|apply IH; assumption]. unfold upper_char in B1.
    replace ((97 <=? l) && (l <=? 122)) with true in B1 by lia. lia. }
  rewrite A, C. reflexivity.
Qed.

(** *** Concrete cases *)
Example hrp_abc : hrp_ok (str "abc").
Proof. split; [discriminate|repeat constructor; cbn; lia]. Qed.
(** BIP350 test vector *)
Example bech32m_vector : bm_decode (str "abcdef1l7aum6echk45nj3s0wdvt2fg8x9yrzpqzd3ryx") bech32_alphabet =
  Ok (str "abcdef", [31;30;29;28;27;26;25;24;23;22;21;20;19;18;17;16;15;14;13;12;11;10;9;8;7;6;5;4;3;2;1;0], Bech32m).
Proof. vm_compute. reflexivity. Qed.
Example bech32m_instance : exists s, bech32m_encode (str "xch") [1;2;3;255] bech32_alphabet = Ok s /\
  bech32m_decode s (str "xch") bech32_alphabet = Ok (Some [1;2;3;255]) /\ bech32m_decode s (str "txch") bech32_alphabet = Ok None.
Proof. eexists. split; [vm_compute; reflexivity|]. split; vm_compute; reflexivity. Qed.
Example bech32m_plain_instance : exists s, bm_encode (str "xch") [1;2;3;31] Bech32 bech32_alphabet = Ok s /\
  bech32m_decode s (str "xch") bech32_alphabet = Ok None.
Proof. eexists. split; [vm_compute; reflexivity|]. vm_compute. reflexivity. Qed.
Example convertbits_bad_padding : convertbits [31; 31] 5 8 false = Err /\ bytom_convertbits [31; 31] 5 8 false = Err /\
  convertbits [31; 28] 5 8 false = Ok [255].
Proof. vm_compute. auto. Qed.
Example bytom_segwit_instance : exists s, bytom_encode_segwit (str "bm") 0 (zeros 20) = Ok s /\
  bytom_decode_segwit (to_upper s) = Ok (0, zeros 20) /\ bytom_encode_segwit (str "bm") 0 (zeros 21) = Err.
Proof. eexists. split; [vm_compute; reflexivity|]. split; vm_compute; reflexivity. Qed.

Print Assumptions convertbits_8_5_value.
Print Assumptions convertbits_roundtrip.
Print Assumptions bytom_convertbits_roundtrip.
Print Assumptions convertbits_accepted_canonical.
Print Assumptions bytom_convertbits_accepted_canonical.
Print Assumptions convertbits_5_8_injective.
Print Assumptions bech32m_roundtrip.
Print Assumptions bech32m_wrong_hrp_silent.
Print Assumptions bech32m_plain_checksum_silent.
Print Assumptions bech32m_errors_detected.
Print Assumptions bytom_segwit_roundtrip.
Print Assumptions bytom_segwit_accepted_canonical.
Print Assumptions bytom_bech32_decode_injective.
Print Assumptions bytom_decode_mixed_case.
