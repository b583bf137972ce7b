(** C30-C33: created Bitcoin transactions. *)
From Coq Require Import String ZArith List Bool Lia ZifyBool ZifyNat.
From Verif Require Import Go GoFacts GoFacts2 Rd Base58Model Base58Spec Base58Props Base58CheckModel Base58CheckSpec Base58CheckProofs Base58CheckProps
  Digits58 AddressCheckProps Bech32Model Bech32Spec Bech32Proofs Bech32Text Bech32Props BtcModel BtcSpec BtcProofs BtcTxProofs SigDerProps Toy.
Import ListNotations.
Open Scope Z_scope.
Ltac Zify.zify_post_hook ::= idtac.

(** C30. Creation succeeds exactly when both lists are non-empty, every id is 32 bytes of hex and every address has a
    script; the result is the hex of the wire format of those inputs and outputs. *)
Theorem create_transaction_iff : forall H ap vins vouts lt r hexs, hash_ok H -> prefixes_ok ap ->
  Forall vin_typed vins -> Forall vout_typed vouts -> Forall (fun v => zlen (v_addr v) <= 400) vouts -> zlen vins <= 255 -> zlen vouts <= 255 ->
  (create_empty H vins vouts lt r ap = Ok hexs <->
   vins <> [] /\ vouts <> [] /\ exists ins outs, Forall2 (spends lt r) vins ins /\ Forall2 (pays H ap) vouts outs /\ hexs = hex_encode (wire_spec_tx 2 ins outs lt)).
Proof.
  intros H ap vins vouts lt r hexs HH HP TI TO L Ni No. rewrite create_trunc by assumption. split; intros (N1 & N2 & ins & outs & Fi & Fo & ->); (split; [exact N1|]; split; [exact N2|]; exists ins, outs; split; [exact Fi|]; split; [exact Fo|]; f_equal).
  - apply trunc_small; [rewrite (Forall2_len _ _ _ Fi)|rewrite (Forall2_len _ _ _ Fo)]; assumption.
  - symmetry. apply trunc_small; [rewrite (Forall2_len _ _ _ Fi)|rewrite (Forall2_len _ _ _ Fo)]; assumption.
Qed.
Lemma create_shape H ap vins vouts lt r hexs : hash_ok H -> prefixes_ok ap ->
  Forall vin_typed vins -> Forall vout_typed vouts -> Forall (fun v => zlen (v_addr v) <= 400) vouts ->
  create_empty H vins vouts lt r ap = Ok hexs ->
  exists ins outs, Forall2 (spends lt r) vins ins /\ Forall2 (pays H ap) vouts outs /\ hexs = hex_encode (trunc_wire 2 ins outs lt) /\ hex_decode hexs = Ok (trunc_wire 2 ins outs lt) /\
    Forall (fun s => zlen (s_txid s) = 32 /\ s_script s = []) ins /\ Forall in_range ins /\ Forall (fun s => 1 <= zlen (s_lock s) <= 252) outs /\ Forall (fun s => 0 <= s_amount s < 2 ^ 64) outs /\ 1 <= zlen ins /\ 1 <= zlen outs /\
    is_bytes (trunc_wire 2 ins outs lt).
Proof.
  intros HH HP TI TO L E. apply create_trunc in E as (N1 & N2 & ins & outs & Fi & Fo & ->); try assumption.
  destruct (spends_ok _ _ _ _ TI Fi) as (S1 & S2 & S3). destruct (pays_ok _ _ _ _ TO L Fo) as (P1 & P2 & P3).
  assert (B : is_bytes (trunc_wire 2 ins outs lt)).
  { apply trunc_bytes.
    - eapply Forall_impl; [|exact (Forall_both _ _ _ S1 S3)]. cbn. tauto.
    - eapply Forall_impl; [|exact (Forall_both _ _ _ P1 P3)]. cbn. intros s [? ?]. split; [assumption|lia]. }
  exists ins, outs. repeat (split; [first [assumption|reflexivity|apply hex_decode_encode; assumption]|]).
  split; [rewrite (Forall2_len _ _ _ Fi); apply zlen_pos, N1|]. split; [rewrite (Forall2_len _ _ _ Fo); apply zlen_pos, N2|exact B].
Qed.
(** C30. Round trip, and nothing may follow the transaction. *)
Theorem created_transaction_decodes : forall H ap vins vouts lt r hexs segwitOn, hash_ok H -> prefixes_ok ap -> 0 <= lt < 2 ^ 32 ->
  Forall vin_typed vins -> Forall vout_typed vouts -> Forall (fun v => zlen (v_addr v) <= 400) vouts -> zlen vins <= 255 -> zlen vouts <= 255 ->
  create_empty H vins vouts lt r ap = Ok hexs ->
  exists b t ins outs, hex_decode hexs = Ok b /\ decode_tx b segwitOn = Ok t /\
    Forall2 (spends lt r) vins ins /\ Forall2 (pays H ap) vouts outs /\ shows 2 ins outs lt t /\
    forall extra, extra <> [] -> decode_tx (b ++ extra) segwitOn = Err.
Proof.
  intros H ap vins vouts lt r hexs sw HH HP HL TI TO L Ni No E.
  destruct (create_shape H ap vins vouts lt r hexs HH HP TI TO L E) as (ins & outs & Fi & Fo & _ & D & S1 & S2 & P1 & P2 & N1 & N2 & _).
  assert (Mi : zlen ins <= 255) by (rewrite (Forall2_len _ _ _ Fi); assumption). assert (Mo : zlen outs <= 255) by (rewrite (Forall2_len _ _ _ Fo); assumption).
  rewrite trunc_small in D by assumption. exists (wire_spec_tx 2 ins outs lt), (tx_of 2 ins outs lt), ins, outs. split; [exact D|].
  apply weaken_locks in P1. split.
  - rewrite <- (app_nil_r (wire_spec_tx _ _ _ _)). rewrite decode_wire_spec by (assumption || lia). reflexivity.
  - split; [exact Fi|]. split; [exact Fo|]. split; [apply shows_tx_of; auto; cbv; intuition congruence|].
    intros extra Ne. rewrite decode_wire_spec by (assumption || lia). destruct extra; [contradiction|reflexivity].
Qed.

(** C31. The created bytes for any number of inputs and outputs: one byte for each count, modulo 256. *)
Theorem counts_are_one_byte : forall H ap vins vouts lt r hexs, hash_ok H -> prefixes_ok ap ->
  Forall vin_typed vins -> Forall vout_typed vouts -> Forall (fun v => zlen (v_addr v) <= 400) vouts ->
  create_empty H vins vouts lt r ap = Ok hexs ->
  exists ins outs, Forall2 (spends lt r) vins ins /\ Forall2 (pays H ap) vouts outs /\
    hex_decode hexs = Ok (le_bytes 4 2 ++ [zlen vins mod 256] ++ concat (map consensus_in ins) ++ [zlen vouts mod 256] ++ concat (map consensus_out outs) ++ le_bytes 4 lt).
Proof.
  intros H ap vins vouts lt r hexs HH HP TI TO L E.
  destruct (create_shape H ap vins vouts lt r hexs HH HP TI TO L E) as (ins & outs & Fi & Fo & _ & D & S1 & _ & P1 & _).
  exists ins, outs. split; [exact Fi|]. split; [exact Fo|]. rewrite D. unfold trunc_wire. rewrite (Forall2_len _ _ _ Fi), (Forall2_len _ _ _ Fo). cbn [app].
  replace (map consensus_in ins) with (map wire_spec_in ins).
  2: { apply map_ext_in. intros s Hs. rewrite Forall_forall in S1. destruct (S1 s Hs) as [_ Q]. unfold wire_spec_in, consensus_in. rewrite Q. reflexivity. }
  replace (map consensus_out outs) with (map wire_spec_out outs); [reflexivity|].
  apply map_ext_in. intros s Hs. rewrite Forall_forall in P1. pose proof (P1 s Hs). unfold wire_spec_out, consensus_out, compact_size. replace (zlen (s_lock s) <? 253) with true by lia. reflexivity.
Qed.
Lemma compact_size_len n : 0 <= n -> (zlen (compact_size n) = 1 /\ n <= 252) \/ (253 <= n /\ 3 <= zlen (compact_size n)).
Proof.
  intros N. unfold compact_size. destruct (n <? 253) eqn:A; [left; cbn; lia|]. right. split; [lia|].
  destruct (n <? 2 ^ 16); [rewrite zlen_cons, zlen_le_bytes; lia|]. destruct (n <? 2 ^ 32); rewrite zlen_cons, zlen_le_bytes; lia.
Qed.
(** C31. The created bytes are the consensus serialisation exactly when there are at most 252 inputs and outputs. *)
Theorem created_is_consensus_iff : forall H ap vins vouts lt r hexs, hash_ok H -> prefixes_ok ap ->
  Forall vin_typed vins -> Forall vout_typed vouts -> Forall (fun v => zlen (v_addr v) <= 400) vouts ->
  create_empty H vins vouts lt r ap = Ok hexs ->
  ((exists ins outs, Forall2 (spends lt r) vins ins /\ Forall2 (pays H ap) vouts outs /\ hex_decode hexs = Ok (consensus_tx 2 ins outs lt)) <->
   zlen vins <= 252 /\ zlen vouts <= 252).
Proof.
  intros H ap vins vouts lt r hexs HH HP TI TO L E.
  destruct (counts_are_one_byte H ap vins vouts lt r hexs HH HP TI TO L E) as (ins & outs & Fi & Fo & D).
  pose proof (zlen_nonneg vins). pose proof (zlen_nonneg vouts). split.
  - intros (ins' & outs' & Fi' & Fo' & D'). rewrite D in D'. apply (f_equal (fun x => match x with Ok b => zlen b | _ => 0 end)) in D'. unfold consensus_tx in D'.
    rewrite !zlen_app in D'. rewrite (Forall2_len _ _ _ Fi'), (Forall2_len _ _ _ Fo') in D'.
    assert (SI : forall l, Forall2 (spends lt r) vins l -> zlen (concat (map consensus_in l)) = 41 * zlen vins).
    { clear. induction vins as [|v vs IH]; intros l F; inversion F as [|? s ? ss (A & B & C & Dd & Ee) F']; subst; [reflexivity|]. cbn [map concat]. rewrite zlen_app, (IH _ F'). unfold consensus_in. rewrite Dd.
      rewrite !zlen_app, !zlen_le_bytes, zlen_cons. change (compact_size (zlen (@nil Z))) with [0]. change (zlen [0]) with 1. change (zlen (@nil Z)) with 0. lia. }
    assert (SO : forall l l', Forall2 (pays H ap) vouts l -> Forall2 (pays H ap) vouts l' -> Forall2 (fun a b => zlen (s_lock a) = zlen (s_lock b)) l l' -> zlen (concat (map consensus_out l)) = zlen (concat (map consensus_out l'))).
    { clear. intros l l' _ _ F. induction F as [|a b l l' Q F IH]; [reflexivity|]. cbn [map concat]. rewrite !zlen_app, IH. unfold consensus_out. rewrite !zlen_app, !zlen_le_bytes, Q. reflexivity. }
    rewrite (SI _ Fi), (SI _ Fi') in D'. rewrite (SO outs outs') in D'; try assumption.
    + change (zlen [zlen vins mod 256]) with 1 in D'. change (zlen [zlen vouts mod 256]) with 1 in D'.
      destruct (compact_size_len (zlen vins) ltac:(lia)), (compact_size_len (zlen vouts) ltac:(lia)); lia.
    + assert (Bl : Forall vout_typed vouts) by assumption. clear - Fo Fo' HH HP Bl.
      revert outs outs' Fo Fo'. induction vouts as [|v vs IH]; intros outs outs' Fo Fo'; inversion Fo as [|? a ? la [_ A] FA]; inversion Fo' as [|? b ? lb [_ B] FB]; subst; constructor.
      * apply Forall_cons_iff in Bl as [[Ba _] _].
        assert (N1 : new_out H ap v = Ok {| out_amount := le_bytes 8 (v_amount v); out_lock := s_lock a |}) by (apply new_out_iff; auto).
        assert (N2 : new_out H ap v = Ok {| out_amount := le_bytes 8 (v_amount v); out_lock := s_lock b |}) by (apply new_out_iff; auto).
        assert (s_lock a = s_lock b) by congruence. congruence.
      * apply Forall_cons_iff in Bl as [_ Bl]. apply IH; assumption.
  - intros [A B]. exists ins, outs. split; [exact Fi|]. split; [exact Fo|]. rewrite D. f_equal. unfold consensus_tx. rewrite (Forall2_len _ _ _ Fi), (Forall2_len _ _ _ Fo).
    unfold compact_size at 1 2. replace (zlen vins <? 253) with true by lia. replace (zlen vouts <? 253) with true by lia. rewrite !Z.mod_small by lia. reflexivity.
Qed.
Lemma decode_wits_length sw l : forall rest l' r, decode_wits sw l rest = Ok (l', r) -> zlen l' = zlen l.
Proof.
  induction l as [|i l IH]; intros rest l' r E; cbn [decode_wits] in E; [injection E as <- <-; reflexivity|].
  apply bind_ok in E as ([j r1] & _ & E). apply bind_ok in E as ([t r2] & Et & E). injection E as <- <-. rewrite !zlen_cons. f_equal. eapply IH. exact Et.
Qed.
Definition rest_bytes {A} (read : bytes -> res (A * bytes)) : Prop := forall b x r, is_bytes b -> read b = Ok (x, r) -> is_bytes r.
Lemma readn_rest {A} (read : bytes -> res (A * bytes)) n : rest_bytes read -> forall b l r, is_bytes b -> readn n read b = Ok (l, r) -> is_bytes r.
Proof.
  intros R. induction n as [|n IH]; intros b l r B E; cbn [readn] in E; [injection E as <- <-; exact B|].
  apply bind_ok in E as ([x r1] & E1 & E). apply bind_ok in E as ([t r2] & E2 & E). injection E as <- <-. eapply IH; [|exact E2]. eapply R; eassumption.
Qed.
Lemma bytes_tail (a : bytes) b : is_bytes (a ++ b) -> is_bytes b.
Proof. intros H. apply is_bytes_app in H. tauto. Qed.
Lemma decode_in_rest w : rest_bytes (decode_in w).
Proof.
  intros b x r B E. unfold decode_in in E. apply need_inv in E as (a1 & b1 & -> & _ & E); [|lia]. apply bytes_tail in B. apply need_inv in E as (a2 & b2 & -> & _ & E); [|lia]. apply bytes_tail in B.
  apply need1_inv in E as (n & b3 & -> & E). apply Forall_cons_iff in B as [Bn B]. unfold is_byte in Bn.
  repeat match type of E with
  | (if ?c then _ else _) = _ => destruct c eqn:?; try discriminate
  | need _ _ _ = _ => apply need_inv in E as (? & ? & -> & _ & E); [apply bytes_tail in B|lia]
  | must _ _ _ = _ => apply must_inv in E as (? & ? & -> & _ & E); [apply bytes_tail in B|lia]
  | Ok _ = Ok _ => injection E as <- <-; exact B
  | (let n := ?v in _) = _ => cbv zeta in E
  end.
  assert (0 <= le_num (firstn 2 b3)). { apply le_num_bound. apply firstn_bytes. exact B. }
  apply must_inv in E as (? & ? & -> & _ & E); [apply bytes_tail in B|lia]. apply must_inv in E as (? & ? & -> & _ & E); [apply bytes_tail in B|lia]. injection E as <- <-. exact B.
Qed.
(** C31. Whatever bytes are decoded, the result has between 1 and 255 inputs and outputs. *)
Theorem decoded_counts : forall b segwitOn t, is_bytes b -> decode_tx b segwitOn = Ok t -> 1 <= zlen (tx_vins t) <= 255 /\ 1 <= zlen (tx_vouts t) <= 255.
Proof.
  intros b sw t B E. unfold decode_tx, decode_v in E. apply need_inv in E as (ver & b1 & -> & _ & E); [|lia]. apply bytes_tail in B.
  destruct (negb _); [discriminate|]. destruct (zlen b1 <? 2); [discriminate|]. apply bind_ok in E as ([w b2] & Ew & E).
  assert (B2 : is_bytes b2).
  { destruct b1 as [|[|p|p] b1]; try (injection Ew as <- <-; exact B). destruct b1 as [|c b1]; [injection Ew as <- <-; exact B|]. destruct (negb (c =? 1)); [discriminate|].
    injection Ew as <- <-. apply Forall_cons_iff in B as [_ B]. apply Forall_cons_iff in B as [_ B]. exact B. }
  clear B Ew. apply need1_inv in E as (n & b3 & -> & E). apply Forall_cons_iff in B2 as [Bn B]. unfold is_byte in Bn. destruct (n =? 0) eqn:N0; [discriminate|].
  apply bind_ok in E as ([ins b4] & Ei & E). pose proof (readn_length _ _ _ _ _ Ei) as Li. pose proof (readn_rest _ _ (decode_in_rest w) _ _ _ B Ei) as B4.
  apply need1_inv in E as (m & b5 & -> & E). apply Forall_cons_iff in B4 as [Bm _]. unfold is_byte in Bm. destruct (m =? 0) eqn:M0; [discriminate|].
  apply bind_ok in E as ([outs b6] & Eo & E). pose proof (readn_length _ _ _ _ _ Eo) as Lo. apply bind_ok in E as ([ins' b7] & Ew & E).
  assert (Lw : zlen ins' = zlen ins) by (destruct w; [eapply decode_wits_length; exact Ew|injection Ew as <- <-; reflexivity]).
  apply need_inv in E as (lt & b8 & -> & _ & E); [|lia]. destruct (negb _); [discriminate|]. injection E as <-. cbn [tx_vins tx_vouts]. rewrite Lw. unfold zlen in *. lia.
Qed.
(** C31. A created transaction with more than 255 inputs or outputs is never decoded to that many. *)
Theorem large_transaction_not_decoded : forall H ap vins vouts lt r hexs b segwitOn t, hash_ok H -> prefixes_ok ap ->
  Forall vin_typed vins -> Forall vout_typed vouts -> Forall (fun v => zlen (v_addr v) <= 400) vouts ->
  create_empty H vins vouts lt r ap = Ok hexs -> 255 < zlen vins \/ 255 < zlen vouts ->
  hex_decode hexs = Ok b -> decode_tx b segwitOn = Ok t -> zlen (tx_vins t) <> zlen vins \/ zlen (tx_vouts t) <> zlen vouts.
Proof.
  intros H ap vins vouts lt r hexs b sw t HH HP TI TO L E N D T. apply hex_decode_bytes in D as [B _]. destruct (decoded_counts b sw t B T). lia.
Qed.
(** C33. Sequence numbers of every input of every created transaction, as decoded. *)
Theorem created_sequences : forall H ap vins vouts lt r hexs b segwitOn t, hash_ok H -> prefixes_ok ap -> 0 <= lt < 2 ^ 32 ->
  Forall vin_typed vins -> Forall vout_typed vouts -> Forall (fun v => zlen (v_addr v) <= 400) vouts -> zlen vins <= 255 -> zlen vouts <= 255 ->
  create_empty H vins vouts lt r ap = Ok hexs -> hex_decode hexs = Ok b -> decode_tx b segwitOn = Ok t ->
  zlen (tx_vins t) = zlen vins /\ Forall (fun i => le_num (in_seq i) = spec_sequence lt r) (tx_vins t).
Proof.
  intros H ap vins vouts lt r hexs b sw t HH HP HL TI TO L Ni No E D T.
  destruct (created_transaction_decodes H ap vins vouts lt r hexs sw HH HP HL TI TO L Ni No E) as (b' & t' & ins & outs & D' & T' & Fi & _ & (_ & S & _) & _).
  assert (b' = b) by congruence. subst b'. assert (t' = t) by congruence. subst t'. clear - Fi S. split.
  - rewrite (Forall2_len _ _ _ S), (Forall2_len _ _ _ Fi). reflexivity.
  - revert vins Fi. induction S as [|s i ss is (_ & _ & _ & _ & Q & _) S IH]; intros vins Fi; [constructor|]. inversion Fi as [|v ? vs ? (_ & _ & _ & _ & W) F']; subst. constructor; [congruence|]. eapply IH. exact F'.
Qed.

(** C32. The locking script of an output, for every address: exactly the script the specification assigns, and an
    error or panic when it assigns none. *)
Theorem output_script_iff : forall H ap v o, hash_ok H -> prefixes_ok ap -> is_bytes (v_addr v) ->
  (new_out H ap v = Ok o <-> out_amount o = le_bytes 8 (v_amount v) /\ script_for H ap (v_addr v) (out_lock o)).
Proof. intros. apply new_out_iff; assumption. Qed.

(** Base58 addresses of the shipped profiles never start with the bech32 prefix. *)
Definition first_not (c : Z) (prefix : bytes) : bool :=
  if hd 1 prefix =? 0 then negb (symbol bitcoin_rs 0 =? c) else
  let lo := be_num prefix * 256 ^ 24 in let hi := (be_num prefix + 1) * 256 ^ 24 - 1 in
  existsb (fun k => if (58 ^ (Z.of_nat k - 1) <=? lo) && (hi <? 58 ^ Z.of_nat k) then
      forallb (fun q => negb (match map (symbol bitcoin_rs) (digits58 1 q) with [] => true | x :: _ => x =? c end)) (zrange (lo / 58 ^ Z.of_nat (k - 1)) (hi / 58 ^ Z.of_nat (k - 1))) else false) (seq 30 12).
Lemma first_not_ok H c p h s : hash_ok H -> p <> [] -> is_bytes p -> is_bytes h -> length h = 20%nat -> first_not c p = true ->
  is_base58_of bitcoin_rs (checked H (p ++ h)) s -> forall q, ~ begins (c :: q) s.
Proof.
  intros HH Np Hp Hh L C N q [r E].
  assert (Fb : is_bytes (p ++ h)) by (apply is_bytes_app; auto).
  assert (Hd : hd 1 (checked H (p ++ h)) = hd 1 p) by (destruct p; [contradiction|reflexivity]).
  unfold first_not in C. destruct (hd 1 p =? 0) eqn:Z0.
  - destruct (base58_lead0 _ _ _ N) as (r' & ->); [lia|]. cbn [app] in E. injection E as E _. lia.
  - apply existsb_exists in C as (k & Kk & C). apply List.in_seq in Kk. destruct (_ && _) eqn:C2 in C; [|discriminate].
    assert (B : be_num p * 256 ^ 24 <= be_num (checked H (p ++ h)) <= (be_num p + 1) * 256 ^ 24 - 1).
    { unfold checked. rewrite <- app_assoc, be_num_app. destruct (HH _ Fb) as [Hc Lc].
      assert (Bx : is_bytes (h ++ firstn 4 (H (p ++ h)))) by (apply is_bytes_app; split; [exact Hh|apply firstn_bytes, Hc]).
      assert (Lx : zlen (h ++ firstn 4 (H (p ++ h))) = 24) by (rewrite zlen_app; unfold zlen in *; rewrite firstn_length; lia).
      pose proof (be_num_bound _ Bx) as Bd. rewrite Lx in *. set (P := 256 ^ 24) in *. nia. }
    remember (be_num p * 256 ^ 24) as lo eqn:Elo. clear Elo. remember ((be_num p + 1) * 256 ^ 24 - 1) as hi eqn:Ehi. clear Ehi.
    destruct (base58_lead bitcoin_rs _ s k 1 lo hi N) as (x & r' & Q & Es); try lia.
    + apply checked_bytes; assumption.
    + rewrite forallb_forall in C. specialize (C x (in_zrange _ _ _ Q)). rewrite Es in E. destruct (map (symbol bitcoin_rs) (digits58 1 x)) as [|y l]; [discriminate|]. cbn [app] in E. injection E as E _. lia.
Qed.
Definition base58_coins : list addr_prefix := [btc_main; btc_test; bch_main; bch_test; ltc_main; ltc_test].
Definition coin_ok (ap : addr_prefix) : bool :=
  match p_bech32 ap with
  | [] => false
  | c :: _ => forallb (fun p => match p with [] => true | _ => first_not c p end && forallb (fun x => (0 <=? x) && (x <=? 255)) p) [p_p2pkh ap; p_p2wpkh ap; p_p2sh ap] &&
              negb (beq (p_p2pkh ap) []) && negb (beq (p_p2wpkh ap) []) && negb (beq (p_p2wpkh ap) (p_p2pkh ap)) && negb (beq (p_p2sh ap) (p_p2pkh ap))
  end.
Lemma coins_ok : forallb coin_ok base58_coins = true.
Proof. vm_compute. reflexivity. Qed.
(** C32. For the Bitcoin, Bitcoin Cash and Litecoin profiles: every address with the P2PKH version pays to the
    P2PKH script of its hash, every address with a P2SH version to the P2SH script. *)
Theorem base58_address_paid : forall H ap prefix h address amount, hash_ok H -> In ap base58_coins -> prefix <> [] -> is_bytes h -> length h = 20%nat ->
  is_base58_of bitcoin_rs (checked H (prefix ++ h)) address ->
  (prefix = p_p2pkh ap -> new_out H ap {| v_addr := address; v_amount := amount |} = Ok {| out_amount := le_bytes 8 amount; out_lock := p2pkh_script h |}) /\
  (prefix = p_p2wpkh ap \/ prefix = p_p2sh ap -> new_out H ap {| v_addr := address; v_amount := amount |} = Ok {| out_amount := le_bytes 8 amount; out_lock := p2sh_script h |}).
Proof.
  intros H ap prefix h address amount HH Hin Np Hh L N.
  pose proof coins_ok as C. rewrite forallb_forall in C. specialize (C ap Hin). unfold coin_ok in C.
  destruct (p_bech32 ap) as [|c q] eqn:Eb; [discriminate|]. cbn [forallb] in C.
  assert (G : forall p, forallb (fun x => (0 <=? x) && (x <=? 255)) p = true -> is_bytes p).
  { intros p F. apply Forall_forall. intros x Hx. rewrite forallb_forall in F. specialize (F x Hx). unfold is_byte. lia. }
  repeat (apply andb_prop in C as [C ?]).
  repeat match goal with X : _ && _ = true |- _ => apply andb_prop in X as [? ?] end.
  assert (HP : prefixes_ok ap) by (repeat split; apply G; assumption).
  assert (NP : prefix = p_p2pkh ap \/ prefix = p_p2wpkh ap \/ prefix = p_p2sh ap -> ~ begins (p_bech32 ap) address).
  { intros D. rewrite Eb. assert (Bp : is_bytes prefix) by (destruct D as [->|[-> | ->]]; apply HP).
    apply (first_not_ok H c prefix h address HH Np Bp Hh L); [|exact N]. destruct D as [->|[-> | ->]]; match goal with |- first_not c ?p = true => destruct p; [contradiction|assumption] end. }
  assert (Ba : is_bytes prefix -> is_bytes address).
  { intros Bp. apply (address_text H) in N; try assumption. destruct (decode_check_encode_check H bitcoin_rs bitcoin_al prefix h HH bitcoin_alphabet_ok bitcoin_al_eq Bp Hh L) as (s & E1 & E2).
    assert (s = address) by congruence. subst s. rewrite encode_check_eq in E1 by assumption.
    destruct (enc_checked H HH bitcoin_rs bitcoin_alphabet_ok bitcoin_al bitcoin_al_eq (prefix ++ h)) as (s' & E3 & _ & A). { apply is_bytes_app; auto. }
    assert (s' = address) by congruence. subst s'. apply ascii_bytes. exact A. }
  split.
  - intros ->. apply new_out_iff; cbn [v_addr v_amount out_amount out_lock]; try assumption; [apply Ba, HP|]. split; [reflexivity|]. right. split; [apply NP; auto|]. exists (p_p2pkh ap), h. auto 8.
  - intros D. assert (Bp : is_bytes prefix) by (destruct D as [-> | ->]; apply HP). assert (Nq : prefix <> p_p2pkh ap).
    { intros ->. destruct D as [Q|Q]; rewrite <- Q, beq_refl' in *; discriminate. }
    apply new_out_iff; cbn [v_addr v_amount out_amount out_lock]; try assumption; [apply Ba, Bp|]. split; [reflexivity|]. right. split; [apply NP; auto|]. exists prefix, h. auto 10.
Qed.
(** C32. Any other version byte is refused. *)
Theorem other_prefix_refused : forall H ap prefix h address amount, hash_ok H -> prefixes_ok ap -> is_bytes prefix -> is_bytes h -> length h = 20%nat ->
  is_base58_of bitcoin_rs (checked H (prefix ++ h)) address -> ~ begins (p_bech32 ap) address ->
  prefix <> p_p2pkh ap -> prefix <> p_p2wpkh ap -> prefix <> p_p2sh ap ->
  new_out H ap {| v_addr := address; v_amount := amount |} = Err.
Proof.
  intros H ap prefix h address amount HH HP Bp Bh L N NP N1 N2 N3. apply address_text in N; try assumption.
  destruct (decode_check_encode_check H bitcoin_rs bitcoin_al prefix h HH bitcoin_alphabet_ok bitcoin_al_eq Bp Bh L) as (s & E1 & E2). assert (s = address) by congruence. subst s.
  unfold new_out. cbn [v_addr v_amount]. destruct (is_prefix (p_bech32 ap) address) eqn:Q; [apply is_prefix_begins in Q; contradiction|]. rewrite E2. cbn [bind].
  destruct (negb (zlen h =? 20)); [reflexivity|]. rewrite !beq_neq by assumption. reflexivity.
Qed.
(** C32. Bech32 addresses with the coin's prefix pay to the version 0 witness program of their data, whatever witness
    version the address states. *)
Theorem bech32_address_paid : forall H ap h v address amount, lower_prefix (p_bech32 ap) -> is_bytes h -> length h = 20%nat \/ length h = 32%nat -> 0 <= v < 32 ->
  bech32_encode (p_bech32 ap) bech32_alphabet h (Some [v]) = Ok address ->
  new_out H ap {| v_addr := address; v_amount := amount |} = Ok {| out_amount := le_bytes 8 amount; out_lock := witness_v0_script h |}.
Proof.
  intros H ap h v address amount LP Bh L Hv E.
  assert (D : bech32_decode address = Ok h).
  { assert (A : exists s, bech32_encode (p_bech32 ap) bech32_alphabet h (Some [v]) = Ok s /\ address_decode_bech32 s = Ok h).
    { destruct L as [L|L]; [apply bech32_roundtrip_20; eauto|apply bech32_roundtrip_32; assumption]. }
    destruct A as (s & E1 & E2). assert (s = address) by congruence. subst s. unfold address_decode_bech32 in E2. apply bind_ok in E2 as (x & E2 & E3). destruct (_ && _) in E3; [discriminate|]. injection E3 as ->. exact E2. }
  unfold new_out. cbn [v_addr v_amount].
  assert (P : is_prefix (p_bech32 ap) address = true).
  { apply is_prefix_begins. rewrite encode_eq in E; [|apply LP|exact Bh|repeat constructor; apply Hv]. cbv zeta in E. eexists. symmetry. injection E as E. exact E. }
  rewrite P, D. cbn [bind]. unfold witness_v0_script. rewrite u8_small; [reflexivity|]. unfold zlen. lia.
Qed.
(** C32. With an empty bech32 prefix (the Zcash profiles) no output ever pays to a base58 address: every created
    output is a version 0 witness program. *)
Theorem empty_prefix_never_base58 : forall H ap v o, p_bech32 ap = [] -> new_out H ap v = Ok o -> hd 1 (out_lock o) = 0.
Proof.
  intros H ap v o E N. unfold new_out in N. rewrite E in N. cbn [is_prefix] in N. apply bind_ok in N as (h & _ & N). injection N as <-. reflexivity.
Qed.

(** ** The hypotheses can be met *)
Definition ex_vin (n : Z) : vin := {| v_txid := hex_encode (repeat n 32); v_vout := n |}.
Definition ex_addr (p : bytes) (n : Z) : list Z := match encode_check bitcoin_al toy_hash p (repeat n 20) with Ok s => s | _ => [] end.
Definition ex_bech (n : Z) : list Z := match bech32_encode (str "bc") bech32_alphabet (repeat n 32) (Some [0]) with Ok s => s | _ => [] end.
Definition ex_vins : list vin := [ex_vin 1; ex_vin 0; ex_vin 77].
Definition ex_vouts : list vout := [{| v_addr := ex_addr [0] 9; v_amount := 5000000000 |}; {| v_addr := ex_addr [5] 200; v_amount := 0 |}; {| v_addr := ex_bech 3; v_amount := 1 |}].
Lemma prefixes_btc : prefixes_ok btc_main.
Proof. repeat split; repeat constructor; cbv; congruence. Qed.
Definition typed_in v := (0 <=? v_vout v) && (v_vout v <? 2 ^ 32).
Definition typed_out v := forallb (fun x => (0 <=? x) && (x <=? 255)) (v_addr v) && (0 <=? v_amount v) && (v_amount v <? 2 ^ 64) && (zlen (v_addr v) <=? 400).
Lemma typed_ok vins vouts : forallb typed_in vins = true -> forallb typed_out vouts = true -> Forall vin_typed vins /\ Forall vout_typed vouts /\ Forall (fun v => zlen (v_addr v) <= 400) vouts.
Proof.
  intros A B. rewrite forallb_forall in A, B. split; [|split]; apply Forall_forall; intros v Hv.
  - specialize (A v Hv). unfold typed_in in A. unfold vin_typed. lia.
  - specialize (B v Hv). unfold typed_out in B. apply andb_prop in B as [B B3]. apply andb_prop in B as [B B2]. apply andb_prop in B as [B B1]. split; [|lia].
    apply Forall_forall. intros x Hx. rewrite forallb_forall in B. specialize (B x Hx). unfold is_byte. lia.
  - specialize (B v Hv). unfold typed_out in B. lia.
Qed.
Example created_example : exists hexs, hash_ok toy_hash /\ prefixes_ok btc_main /\ (Forall vin_typed ex_vins /\ Forall vout_typed ex_vouts /\ Forall (fun v => zlen (v_addr v) <= 400) ex_vouts) /\
  zlen ex_vins = 3 /\ zlen ex_vouts = 3 /\ create_empty toy_hash ex_vins ex_vouts 7 false btc_main = Ok hexs.
Proof.
  eexists. split; [exact toy_hash_ok|]. split; [exact prefixes_btc|]. split; [apply typed_ok; vm_compute; reflexivity|]. split; [reflexivity|]. split; [reflexivity|]. vm_compute. reflexivity.
Qed.
(** 256 inputs: created, and not decoded back. *)
Example large_example : match create_empty toy_hash (repeat (ex_vin 3) 256) ex_vouts 7 false btc_main with
  | Ok hexs => match hex_decode hexs with Ok b => nth 4 b 9 = 0 /\ decode_tx b false = Err | _ => False end | _ => False end.
Proof. vm_compute. split; reflexivity. Qed.
(** 257 inputs: created with count 1. *)
Example large_example_257 : match create_empty toy_hash (repeat (ex_vin 3) 257) ex_vouts 7 false btc_main with
  | Ok hexs => match hex_decode hexs with Ok b => nth 4 b 9 = 1 | _ => False end | _ => False end.
Proof. vm_compute. reflexivity. Qed.
Example other_prefix_example : new_out toy_hash btc_main {| v_addr := ex_addr [7] 9; v_amount := 1 |} = Err /\ is_prefix (p_bech32 btc_main) (ex_addr [7] 9) = false.
Proof. vm_compute. split; reflexivity. Qed.
(** A taproot (version 1) address is paid as a version 0 program. *)
Example taproot_example : match bech32_encode (str "bc") bech32_alphabet (repeat 4 32) (Some [1]) with
  | Ok s => new_out toy_hash btc_main {| v_addr := s; v_amount := 1 |} = Ok {| out_amount := le_bytes 8 1; out_lock := [0; 32] ++ repeat 4 32 |} | _ => False end.
Proof. vm_compute. reflexivity. Qed.
Example zcash_example : new_out toy_hash zec_main {| v_addr := ex_addr [0x1C; 0xB8] 9; v_amount := 1 |} = Err.
Proof. vm_compute. reflexivity. Qed.
Print Assumptions create_transaction_iff.
Print Assumptions created_transaction_decodes.
Print Assumptions counts_are_one_byte.
Print Assumptions created_is_consensus_iff.
Print Assumptions decoded_counts.
Print Assumptions large_transaction_not_decoded.
Print Assumptions created_sequences.
Print Assumptions output_script_iff.
Print Assumptions base58_address_paid.
Print Assumptions other_prefix_refused.
Print Assumptions bech32_address_paid.
Print Assumptions empty_prefix_never_base58.
