(** btcLikeTxDriver: creation and decoding. Specifications in BtcSpec.v and LikeProofs.v ([like_pays], [ltx_of], [spec_wit]). *)
From Coq Require Import String ZArith List Bool Lia ZifyBool ZifyNat.
From Verif Require Import Go GoFacts GoFacts2 Rd Base58Model Base58Spec Base58Props Base58CheckModel Base58CheckSpec Base58CheckProofs Base58CheckProps
  Digits58 BtcModel BtcSpec BtcProofs BtcTxProofs BtcTxProps BtcSigProps SigModel SigDerProps LikeModel LikeProofs Toy.
Import ListNotations.
Open Scope Z_scope.
Ltac Zify.zify_post_hook ::= idtac.

Lemma wire_is_consensus version ins outs lt : zlen ins <= 252 -> zlen outs <= 252 -> Forall (fun s => zlen (s_script s) <= 252) ins -> Forall (fun s => zlen (s_lock s) <= 252) outs ->
  wire_spec_tx version ins outs lt = consensus_tx version ins outs lt.
Proof.
  intros A B Fi Fo. unfold wire_spec_tx, consensus_tx. rewrite !compact_small by assumption. cbn [app].
  replace (map consensus_in ins) with (map wire_spec_in ins). replace (map consensus_out outs) with (map wire_spec_out outs). reflexivity.
  - apply map_ext_in. intros s I. rewrite Forall_forall in Fo. unfold wire_spec_out, consensus_out. rewrite compact_small by (apply Fo; exact I). reflexivity.
  - apply map_ext_in. intros s I. rewrite Forall_forall in Fi. unfold wire_spec_in, consensus_in. rewrite compact_small by (apply Fi; exact I). reflexivity.
Qed.
(** ** C114 *)
(** Creation succeeds exactly for non-empty lists with 32-byte ids and test-network Base58Check addresses, and gives the
    described transaction, its counts cut to one byte. *)
Theorem like_create_iff : forall H sha vins vouts lt r hexs, hash_ok H -> Forall vin_typed vins -> Forall vout_typed vouts ->
  like_create H sha vins vouts lt r = Ok hexs <->
  vins <> [] /\ vouts <> [] /\ exists ins outs, Forall2 (spends lt r) vins ins /\ Forall2 (like_pays H) vouts outs /\
    hexs = hex_encode (le_bytes 4 2 ++ zlen vins mod 256 :: concat (map wire_spec_in ins) ++ zlen vouts mod 256 :: concat (map wire_spec_out outs) ++ le_bytes 4 lt).
Proof.
  intros H sha vins vouts lt r hexs HH TI TO. rewrite like_create_trunc by assumption. unfold trunc_wire.
  split; intros (N1 & N2 & ins & outs & Fi & Fo & ->); (split; [exact N1|]; split; [exact N2|]; exists ins, outs; split; [exact Fi|]; split; [exact Fo|]);
    rewrite (Forall2_len _ _ _ Fi), (Forall2_len _ _ _ Fo); reflexivity.
Qed.
(** So the address text decides: none that begins with "tb1" is ever accepted, although the code reads them. *)
Theorem like_create_no_bech32 : forall H sha vins vouts lt r v, hash_ok H -> Forall vin_typed vins -> Forall vout_typed vouts ->
  In v vouts -> begins (str "tb1") (v_addr v) -> forall hexs, like_create H sha vins vouts lt r <> Ok hexs.
Proof.
  intros H sha vins vouts lt r v HH TI TO I B hexs E. apply like_create_iff in E as (_ & _ & ins & outs & _ & Fo & _); try assumption.
  apply in_split in I as (a & b & ->). apply Forall2_app_inv_l in Fo as (oa & ob & _ & Fo & _). inversion Fo as [|? o ? ? P _]; subst. destruct P as (_ & h & Bh & Lh & [[N _]|[N _]]).
  - exact (like_text_head H 0x6F h (v_addr v) HH Bh Lh (or_introl eq_refl) N B).
  - exact (like_text_head H 0xC4 h (v_addr v) HH Bh Lh (or_intror eq_refl) N B).
Qed.
(** With at most 252 inputs and outputs it is the consensus format; the decoder shows it and takes nothing longer. *)
Theorem like_created_decodes : forall H sha vins vouts lt r hexs, hash_ok H -> Forall vin_typed vins -> Forall vout_typed vouts -> zlen vins <= 252 -> zlen vouts <= 252 ->
  like_create H sha vins vouts lt r = Ok hexs ->
  exists ins outs, Forall2 (spends lt r) vins ins /\ Forall2 (like_pays H) vouts outs /\
    hex_decode hexs = Ok (consensus_tx 2 ins outs lt) /\ like_decode (consensus_tx 2 ins outs lt) = Ok (ltx_of 2 ins outs [] lt) /\
    forall extra, extra <> [] -> like_decode (consensus_tx 2 ins outs lt ++ extra) = Err.
Proof.
  intros H sha vins vouts lt r hexs HH TI TO Ni No E. apply like_create_trunc in E as (N1 & N2 & ins & outs & Fi & Fo & ->); try assumption.
  exists ins, outs. split; [exact Fi|]. split; [exact Fo|]. destruct (spends_ok _ _ _ _ TI Fi) as (S1 & _ & S2). destruct (like_locks _ _ _ TO Fo) as (L1 & L2 & L3).
  pose proof (Forall2_len _ _ _ Fi) as LI. pose proof (Forall2_len _ _ _ Fo) as LO. pose proof (zlen_pos _ N1). pose proof (zlen_pos _ N2).
  assert (W : trunc_wire 2 ins outs lt = consensus_tx 2 ins outs lt).
  { rewrite trunc_small by lia. apply wire_is_consensus; [lia|lia|eapply Forall_impl; [|exact S1]; cbn; intros s [_ ->]; cbv; discriminate|eapply Forall_impl; [|exact L1]; cbn; intros; lia]. }
  split; [|].
  { rewrite <- W. apply hex_decode_encode. apply trunc_bytes; [apply Forall_both; [exact S2|]; eapply Forall_impl; [|exact S1]; cbn; tauto|]. apply Forall_both; [exact L3|]. eapply Forall_impl; [|exact L1]; cbn; intros; lia. }
  assert (D : forall tail, like_decode (consensus_tx 2 ins outs lt ++ tail) = after_outs false (le_bytes 4 2) (map lin_of ins) (map lout_of outs) (le_bytes 4 lt ++ tail)).
  { intros tail. rewrite <- W, trunc_small by lia. unfold wire_spec_tx. rewrite <- !app_assoc. cbn [app]. rewrite <- app_assoc. cbn [app]. rewrite <- app_assoc.
    apply (decode_prefix 2 ins outs false); [lia|lia|intros _; lia|eapply Forall_impl; [|exact S1]; cbn; tauto]. }
  split.
  - rewrite <- (app_nil_r (consensus_tx 2 ins outs lt)), D. unfold after_outs. cbn [bind]. rewrite need_app by apply zlen_le_bytes. reflexivity.
  - intros extra NE. rewrite D. unfold after_outs. cbn [bind]. rewrite need_app by apply zlen_le_bytes. pose proof (zlen_pos _ NE). replace (zlen extra =? 0) with false by lia. reflexivity.
Qed.

(** ** C115 *)
Lemma need_fine {A} n rest (k : bytes -> bytes -> res A) : (forall a b, k a b <> Panic) -> need n rest k <> Panic.
Proof. intros F. unfold need. destruct (zlen rest <? n); [discriminate|apply F]. Qed.
Lemma need1_fine {A} rest (k : Z -> bytes -> res A) : (forall a b, k a b <> Panic) -> need1 rest k <> Panic.
Proof. intros F. destruct rest; [discriminate|apply F]. Qed.
Lemma readn_fine {A} n (read : bytes -> res (A * bytes)) : (forall b, read b <> Panic) -> forall b, readn n read b <> Panic.
Proof.
  intros F. induction n as [|n IH]; intros b; [discriminate|]. cbn [readn]. destruct (read b) as [[x r]| |] eqn:E; [|discriminate|exfalso; exact (F b E)]. cbn [bind].
  destruct (readn n read r) as [[l r']| |] eqn:E2; [discriminate|discriminate|exfalso; exact (IH r E2)].
Qed.
Lemma decode_in_fine b : like_decode_in b <> Panic.
Proof. unfold like_decode_in. apply need_fine; intros; apply need_fine; intros; apply need1_fine; intros; apply need_fine; intros; apply need_fine; intros; discriminate. Qed.
Lemma decode_out_fine b : like_decode_out b <> Panic.
Proof. unfold like_decode_out. apply need_fine; intros; apply need1_fine; intros; apply need_fine; intros; discriminate. Qed.
Lemma bind_fine {A B} (r : res A) (f : A -> res B) : r <> Panic -> (forall x, f x <> Panic) -> bind r f <> Panic.
Proof. intros N F. destruct r; [apply F|discriminate|contradiction]. Qed.
(** Without the segwit marker the decoder accepts exactly the transactions written in the format, with nothing after
    them, shows what is written, and never panics. *)
Theorem like_decode_plain : forall b, is_bytes b -> nth 4 b 1 <> 0 ->
  like_decode b <> Panic /\
  forall t, like_decode b = Ok t <->
    exists version ins outs lt, 0 <= version < 2 ^ 32 /\ 0 <= lt < 2 ^ 32 /\ 1 <= zlen ins <= 255 /\ zlen outs <= 255 /\ Forall in_field ins /\ Forall out_field outs /\
      b = wire_spec_tx version ins outs lt /\ t = ltx_of version ins outs [] lt.
Proof.
  intros b B N4. split.
  - unfold like_decode. intros E. revert E. unfold need at 1. destruct (zlen b <? 4) eqn:L4; [discriminate|]. destruct (zlen (skipn (Z.to_nat 4) b) <? 2) eqn:L2; [discriminate|].
    change (Z.to_nat 4) with 4%nat in *. destruct b as [|b0 [|b1 [|b2 [|b3 [|b4 [|b5 b]]]]]]; try (cbv in L4, L2; discriminate). cbn [nth] in N4. cbn [skipn firstn].
    replace (b4 =? 0) with false by lia. cbn [bind]. apply need1_fine. intros nin r1. apply bind_fine; [apply readn_fine; apply decode_in_fine|]. intros [ins r2]. apply need1_fine. intros nout r3.
    apply bind_fine; [apply readn_fine; apply decode_out_fine|]. intros [outs r4]. cbn [bind]. apply need_fine. intros l r5. destruct (negb (zlen r5 =? 0)); discriminate.
  - intros t. split.
    + intros E. unfold like_decode in E. apply need_inv in E as (v & b1 & -> & LV & E); [|lia]. apply is_bytes_app in B as [BV B]. destruct (field_of 4 v BV LV) as [EV RV].
      destruct v as [|v0 [|v1 [|v2 [|v3 [|v4 v]]]]]; try discriminate LV; [|exfalso; rewrite !zlen_cons in LV; pose proof (zlen_nonneg v); lia]. cbn [app nth] in N4.
      destruct (zlen b1 <? 2) eqn:L2; [discriminate|]. destruct b1 as [|b4 [|b5 b1]]; try (cbv in L2; discriminate). cbn [nth] in N4.
      replace (b4 =? 0) with false in E by lia. cbn [bind] in E. apply need1_inv in E as (nin & r1 & Q1 & E). assert (nin = b4 /\ r1 = b5 :: b1) as [-> ->] by (split; congruence). clear Q1.
      pose proof B as B0. apply Forall_cons_iff in B0 as [B4 B0]. unfold is_byte in B4.
      apply bind_ok in E as ([ins0 r2] & E1 & E). apply (readn_inv like_decode_in lin_of in_field wire_spec_in _ decode_in_inv) in E1 as (ins & -> & Fi & Li & Q1); [|exact B0].
      apply need1_inv in E as (nout & r3 & -> & E). rewrite Q1 in B0. apply is_bytes_app in B0 as [_ B0]. apply Forall_cons_iff in B0 as [Bo B0]. unfold is_byte in Bo.
      apply bind_ok in E as ([outs0 r4] & E2 & E). apply (readn_inv like_decode_out lout_of out_field wire_spec_out _ decode_out_inv) in E2 as (outs & -> & Fo & Lo & ->); [|exact B0].
      cbn [bind] in E. apply is_bytes_app in B0 as [_ B0]. apply need_inv in E as (l & r5 & -> & LL & E); [|lia]. apply is_bytes_app in B0 as [BL _]. destruct (field_of 4 l BL LL) as [EL RL].
      destruct (zlen r5 =? 0) eqn:L5; [|discriminate]. destruct r5 as [|x r5]; [|rewrite zlen_cons in L5; pose proof (zlen_nonneg r5); lia]. cbn [negb] in E.
      exists (le_num [v0; v1; v2; v3]), ins, outs, (le_num l). split; [exact RV|]. split; [exact RL|]. assert (zlen ins = b4) by (unfold zlen; lia). assert (zlen outs = nout) by (unfold zlen; lia).
      split; [lia|]. split; [lia|]. split; [exact Fi|]. split; [exact Fo|]. split.
      * unfold wire_spec_tx. rewrite <- EV, <- EL. f_equal. rewrite Q1, app_nil_r. congruence.
      * unfold ltx_of. rewrite <- EV, <- EL. congruence.
    + intros (version & ins & outs & lt & V & L & Ni & No & Fi & Fo & -> & ->). unfold wire_spec_tx.
      refine (eq_trans (decode_prefix version ins outs false (le_bytes 4 lt) ltac:(lia) ltac:(lia) (fun _ => proj1 Ni) _) _); [eapply Forall_impl; [|exact Fi]; intros s F; apply F|].
      unfold after_outs. cbn [bind]. rewrite <- (app_nil_r (le_bytes 4 lt)). rewrite need_app by apply zlen_le_bytes. reflexivity.
Qed.
(** A transaction with one witness per input, as the network carries them: the decoder shows it when every integer of
    every signature fills at least 32 bytes and every type is SIGHASH_ALL, and panics otherwise. *)
Theorem like_decode_witness : forall version ins outs ws lt, zlen ins <= 255 -> zlen outs <= 255 -> Forall in_field ins -> length ws = length ins -> Forall wit_ok ws ->
  like_decode (le_bytes 4 version ++ [0; 1] ++ zlen ins :: concat (map wire_spec_in ins) ++ zlen outs :: concat (map wire_spec_out outs) ++ concat (map wit_bytes ws) ++ le_bytes 4 lt) =
  if forallb wit_long ws then Ok (ltx_of version ins outs (map wit_shown ws) lt) else Panic.
Proof.
  intros version ins outs ws lt Ni No Fi Lw Fw.
  refine (eq_trans (decode_prefix version ins outs true (concat (map wit_bytes ws) ++ le_bytes 4 lt) Ni No ltac:(discriminate) _) _); [eapply Forall_impl; [|exact Fi]; intros s F; apply F|].
  unfold after_outs. rewrite map_length, <- Lw, decode_wits_spec by exact Fw. destruct (forallb wit_long ws); [|reflexivity]. cbn [bind].
  rewrite <- (app_nil_r (le_bytes 4 lt)). rewrite need_app by apply zlen_le_bytes. reflexivity.
Qed.
(** In numbers: a minimal integer fills 32 bytes from 2^247 on. *)
Theorem like_witness_short_panics : forall version ins outs ws lt w, zlen ins <= 255 -> zlen outs <= 255 -> Forall in_field ins -> length ws = length ins -> Forall wit_ok ws ->
  In (Some w) ws -> w_r w < 2 ^ 247 \/ w_s w < 2 ^ 247 ->
  like_decode (le_bytes 4 version ++ [0; 1] ++ zlen ins :: concat (map wire_spec_in ins) ++ zlen outs :: concat (map wire_spec_out outs) ++ concat (map wit_bytes ws) ++ le_bytes 4 lt) = Panic.
Proof.
  intros version ins outs ws lt w Ni No Fi Lw Fw I S. rewrite like_decode_witness by assumption. replace (forallb wit_long ws) with false; [reflexivity|].
  symmetry. apply not_true_is_false. intros F. rewrite forallb_forall in F. specialize (F _ I). rewrite Forall_forall in Fw. destruct (Fw _ I) as (D1 & _ & D2 & _). cbn [wit_long] in F.
  pose proof (der_long _ _ D1) as Q1. pose proof (der_long _ _ D2) as Q2. unfold zlen in F. destruct S; lia.
Qed.

(** ** Concrete cases *)
Definition ex_like_vouts : list vout := [{| v_addr := ex_addr [0x6F] 9; v_amount := 5000000000 |}; {| v_addr := ex_addr [0xC4] 200; v_amount := 0 |}].
Example like_create_example : exists hexs, hash_ok toy_hash /\ Forall vin_typed ex_vins /\ Forall vout_typed ex_like_vouts /\ zlen ex_vins = 3 /\ zlen ex_like_vouts = 2 /\
  like_create toy_hash (fun _ => []) ex_vins ex_like_vouts 7 false = Ok hexs.
Proof.
  eexists. split; [exact toy_hash_ok|]. destruct (typed_ok ex_vins ex_like_vouts) as (A & B & _); [vm_compute; reflexivity|vm_compute; reflexivity|].
  split; [exact A|]. split; [exact B|]. split; [reflexivity|]. split; [reflexivity|]. vm_compute. reflexivity.
Qed.
Example like_no_bech32_example : begins (str "tb1") (str "tb1qq").
Proof. exists (str "qq"). reflexivity. Qed.
Definition ex_like_in (n : Z) : spec_in := {| s_txid := repeat n 32; s_vout := n; s_script := [n]; s_seq := 7 |}.
Definition ex_like_out : spec_out := {| s_amount := 5; s_lock := [1; 2] |}.
Lemma ex_like_in_field n : 0 <= n < 256 -> in_field (ex_like_in n).
Proof.
  intros R. unfold in_field, ex_like_in. cbn [s_txid s_vout s_script s_seq]. split; [apply Forall_forall; intros x I; apply repeat_spec in I; subst; unfold is_byte; lia|].
  split; [reflexivity|]. split; [lia|]. split; [constructor; [unfold is_byte; lia|constructor]|]. split; [cbv; discriminate|]. lia.
Qed.
Example like_plain_example : like_decode (wire_spec_tx 2 [ex_like_in 1; ex_like_in 9] [ex_like_out] 3) = Ok (ltx_of 2 [ex_like_in 1; ex_like_in 9] [ex_like_out] [] 3) /\
  nth 4 (wire_spec_tx 2 [ex_like_in 1; ex_like_in 9] [ex_like_out] 3) 1 <> 0.
Proof. split; [vm_compute; reflexivity|vm_compute; discriminate]. Qed.
(** Two inputs, the second with a witness whose integers are 2^248 and 2^248 + 2^240: shown. With the first integer one
    byte shorter: a panic. *)
Definition ex_wit (R : bytes) : spec_wit := {| w_r := be_num R; w_s := 2 ^ 248; w_R := R; w_S := 1 :: repeat 0 31; w_type := 1; w_pub := repeat 2 33 |}.
Lemma ex_wit_ok n : (n <= 31)%nat -> wit_ok (Some (ex_wit (1 :: repeat 0 n))).
Proof.
  intros Hn. assert (Z0 : forall k, is_bytes (1 :: repeat 0 k)) by (intros k; constructor; [unfold is_byte; lia|]; apply Forall_forall; intros x I; apply repeat_spec in I; subst; unfold is_byte; lia).
  assert (D : forall k, der_int (be_num (1 :: repeat 0 k)) (1 :: repeat 0 k)).
  { intros k. split; [apply Z0|]. split; [discriminate|]. split; [reflexivity|]. split; [cbn [hd]; lia|]. intros x y l E ->. discriminate E. }
  unfold wit_ok, ex_wit. cbn [w_r w_s w_R w_S w_type w_pub]. split; [apply D|]. split.
  - pose proof (be_num_bound (1 :: repeat 0 n) (Z0 n)) as Q. eapply Z.lt_le_trans; [apply Q|]. apply Z.pow_le_mono_r; [lia|]. unfold zlen. cbn [length]. rewrite repeat_length. lia.
  - split; [exact (D 31%nat)|]. split; [reflexivity|]. split; [unfold is_byte; lia|]. split; [|reflexivity]. apply Forall_forall; intros x I; apply repeat_spec in I; subst; unfold is_byte; lia.
Qed.
Example like_witness_example : exists ins ws, length ins = 2%nat /\ length ws = length ins /\ Forall in_field ins /\ Forall wit_ok ws /\ forallb wit_long ws = true /\ nth 1 ws None <> None.
Proof.
  exists [ex_like_in 1; ex_like_in 9], [None; Some (ex_wit (1 :: repeat 0 31))]. split; [reflexivity|]. split; [reflexivity|].
  split; [constructor; [apply ex_like_in_field; lia|constructor; [apply ex_like_in_field; lia|constructor]]|].
  split; [constructor; [exact I|constructor; [apply ex_wit_ok; lia|constructor]]|]. split; [reflexivity|discriminate].
Qed.
Example like_witness_short_example : exists ins ws, length ins = 2%nat /\ length ws = length ins /\ Forall in_field ins /\ Forall wit_ok ws /\ exists w, In (Some w) ws /\ w_r w < 2 ^ 247.
Proof.
  exists [ex_like_in 1; ex_like_in 9], [None; Some (ex_wit (1 :: repeat 0 30))]. split; [reflexivity|]. split; [reflexivity|].
  split; [constructor; [apply ex_like_in_field; lia|constructor; [apply ex_like_in_field; lia|constructor]]|].
  split; [constructor; [exact I|constructor; [apply ex_wit_ok; lia|constructor]]|]. exists (ex_wit (1 :: repeat 0 30)). split; [right; left; reflexivity|reflexivity].
Qed.
Print Assumptions like_create_iff.
Print Assumptions like_create_no_bech32.
Print Assumptions like_created_decodes.
(** The marker is followed by 1, or the bytes are refused. *)
Theorem like_decode_flag : forall v flag rest, length v = 4%nat -> flag <> 1 -> like_decode (v ++ 0 :: flag :: rest) = Err.
Proof.
  intros v flag rest L N. destruct v as [|v0 [|v1 [|v2 [|v3 [|v4 v]]]]]; try discriminate L. unfold like_decode, need. cbn [app]. rewrite !zlen_cons. pose proof (zlen_nonneg rest).
  replace (1 + (1 + (1 + (1 + (1 + (1 + zlen rest))))) <? 4) with false by lia. change (Z.to_nat 4) with 4%nat. cbn [skipn firstn]. rewrite !zlen_cons. replace (1 + (1 + zlen rest) <? 2) with false by lia.
  change (0 =? 0) with true. replace (flag =? 1) with false by lia. reflexivity.
Qed.
Print Assumptions like_decode_flag.
Print Assumptions like_decode_plain.
Print Assumptions like_decode_witness.
Print Assumptions like_witness_short_panics.
