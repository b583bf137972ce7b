(** Specification vocabulary and lemmas for the transactions of the packages derived from btcTransaction (FamModel.v). *)
From Coq Require Import String ZArith List Bool Lia ZifyBool ZifyNat.
From Verif Require Import Go GoFacts GoFacts2 Rd Base58Model Base58Spec Base58Props Base58CheckModel Base58CheckSpec Base58CheckProofs Base58CheckProps
  Bech32Model BtcModel BtcSpec BtcProofs BtcTxProofs BtcTxProps SigDerProps HyperProps OmniModel FamModel.
Import ListNotations.
Open Scope Z_scope.
Ltac Zify.zify_post_hook ::= idtac.

(** ** Specification *)
(** [lock] is the script of a base58check address: the key-hash script for the key prefix, the script-hash script for the
    other prefix ([p2wpkh]) or, if [third], for the third one. *)
Definition base58_script_for (H : bytes -> bytes) (ap : addr_prefix) (third : bool) (address : list Z) (lock : bytes) : Prop :=
  exists prefix h, is_bytes h /\ length h = 20%nat /\ is_base58_of bitcoin_rs (checked H (prefix ++ h)) address /\
    (prefix = p_p2pkh ap /\ lock = p2pkh_script h \/
     prefix <> p_p2pkh ap /\ (prefix = p_p2wpkh ap \/ third = true /\ prefix = p_p2sh ap) /\ lock = p2sh_script h).
(** Output [o] pays the amount to the address; [tail] follows the address's script. *)
Definition base58_pays (H : bytes -> bytes) (ap : addr_prefix) (third : bool) (tail : bytes) (v : vout) (o : spec_out) : Prop :=
  s_amount o = v_amount v /\ exists lock, base58_script_for H ap third (v_addr v) lock /\ s_lock o = lock ++ tail.
(** Outputs that a transaction can hold: at most 252, each amount 8 bytes, each script of at most 252 bytes. *)
Definition holds (outs : list spec_out) : Prop :=
  1 <= zlen outs <= 252 /\ Forall (fun s => 0 <= s_amount s < 2 ^ 64 /\ is_bytes (s_lock s) /\ zlen (s_lock s) <= 252) outs.

(** ** Lemmas *)
Lemma base58_script_iff H ap third a s : hash_ok H -> prefixes_ok ap -> is_bytes a ->
  base58_script H ap third a = Ok s <-> base58_script_for H ap third a s.
Proof.
  intros HH (P1 & P2 & P3) Ba. unfold base58_script, base58_script_for. split.
  - intros E. apply bind_ok in E as ([p h] & D & E).
    destruct (decode_check_inv H HH bitcoin_rs bitcoin_alphabet_ok bitcoin_al bitcoin_al_eq _ p h Ba D) as (Bp & Bh & L & K).
    assert (Lz : zlen h = 20) by (unfold zlen; lia). rewrite Lz in E. change (negb (20 =? 20)) with false in E. cbv iota in E.
    assert (N : is_base58_of bitcoin_rs (checked H (p ++ h)) a) by (apply address_text; assumption). exists p, h. split; [exact Bh|]. split; [exact L|]. split; [exact N|].
    destruct (beq p (p_p2pkh ap)) eqn:B1.
    + apply beq_eq in B1. left. split; [exact B1|]. cbv zeta in E. assert (s = p2pkh_script h) by (injection E as <-; reflexivity). exact H0.
    + right. split; [intros ->; rewrite beq_refl' in B1; discriminate|]. destruct (beq p (p_p2wpkh ap) || (third && beq p (p_p2sh ap))) eqn:B2; [|discriminate]. split.
      * apply orb_prop in B2 as [B2|B2]; [left; apply beq_eq; exact B2|]. apply andb_prop in B2 as [T B2]. right. split; [exact T|apply beq_eq; exact B2].
      * cbv zeta in E. injection E as <-. reflexivity.
  - intros (p & h & Bh & L & N & C).
    assert (Bp : is_bytes p) by (destruct C as [[-> _]|(_ & [->|[_ ->]] & _)]; assumption).
    apply address_text in N; try assumption.
    destruct (decode_check_encode_check H bitcoin_rs bitcoin_al p h HH bitcoin_alphabet_ok bitcoin_al_eq Bp Bh L) as (s' & E1 & E2).
    assert (s' = a) by congruence. subst s'. rewrite E2. cbn [bind].
    assert (Lz : zlen h = 20) by (unfold zlen; lia). rewrite Lz. change (negb (20 =? 20)) with false. cbv iota zeta.
    destruct C as [[-> E]|(Np & Q & E)].
    + rewrite beq_refl'. subst. reflexivity.
    + rewrite beq_neq by exact Np. replace (beq p (p_p2wpkh ap) || (third && beq p (p_p2sh ap))) with true; [subst; reflexivity|].
      symmetry. apply orb_true_intro. destruct Q as [->|[-> ->]]; rewrite beq_refl'; auto.
Qed.
Lemma base58_script_facts H ap third a s : base58_script_for H ap third a s -> is_bytes s /\ 23 <= zlen s <= 25.
Proof.
  intros (p & h & Bh & L & _ & [[_ ->]|(_ & _ & ->)]).
  - split; [|rewrite p2pkh_len by exact L; lia]. unfold p2pkh_script. apply is_bytes_app. split; [repeat constructor; lia|]. apply is_bytes_app. split; [exact Bh|repeat constructor; lia].
  - split; [|rewrite p2sh_len by exact L; lia]. unfold p2sh_script. apply is_bytes_app. split; [repeat constructor; lia|]. apply is_bytes_app. split; [exact Bh|repeat constructor; lia].
Qed.
(** An address text determines the script. *)
Lemma base58_script_unique H ap third a s s' : hash_ok H -> prefixes_ok ap -> is_bytes a -> base58_script_for H ap third a s -> base58_script_for H ap third a s' -> s = s'.
Proof. intros HH HP Ba A B. apply (base58_script_iff H ap third a s HH HP Ba) in A. apply (base58_script_iff H ap third a s' HH HP Ba) in B. congruence. Qed.

Lemma out_bytes_iff o b : zlen (s_lock o) <= 252 -> out_bytes (out_of o) = Ok b <-> s_lock o <> [] /\ b = consensus_out o.
Proof.
  intros L. unfold out_bytes, out_of. cbn [out_amount out_lock]. rewrite zlen_le_bytes. change (negb (Z.of_nat 8 =? 8)) with false. cbv iota.
  destruct (s_lock o) as [|x l] eqn:E.
  - change (zlen (@nil Z)) with 0. change (0 =? 0) with true. cbv iota. split; [discriminate|intros [N _]; contradiction].
  - assert (P : 1 <= zlen (x :: l)) by (apply zlen_pos; discriminate). replace (zlen (x :: l) =? 0) with false by lia. cbv iota. unfold consensus_out, compact_size, u8. rewrite E. replace (zlen (x :: l) <? 253) with true by lia. rewrite Z.mod_small by lia.
    split; [intros Q; split; [discriminate|injection Q as <-; reflexivity]|intros [_ ->]; reflexivity].
Qed.
Lemma tx_bytes_iff version ins outs lt b : 1 <= zlen ins <= 252 -> 1 <= zlen outs <= 252 ->
  Forall (fun s => zlen (s_txid s) = 32 /\ s_script s = []) ins -> Forall (fun s => zlen (s_lock s) <= 252) outs ->
  tx_bytes false (tx_of version ins outs lt) = Ok b <-> Forall (fun o => s_lock o <> []) outs /\ b = consensus_tx version ins outs lt.
Proof.
  intros Ni No Fi Fo. unfold tx_bytes, tx_of. cbn [tx_version tx_vins tx_vouts tx_locktime tx_witness]. rewrite !zlen_map.
  replace (zlen ins =? 0) with false by lia. replace (zlen outs =? 0) with false by lia. rewrite !zlen_le_bytes. change (negb (Z.of_nat 4 =? 4)) with false. cbv iota.
  rewrite (mapr_ok _ (fun i => wire_in i (in_pub i))).
  2: { intros i Hi. apply in_map_iff in Hi as (s & <- & Hs). rewrite Forall_forall in Fi. apply in_bytes_empty; [apply ok_in_of, Fi, Hs|reflexivity|cbn; lia]. }
  cbn [bind].
  assert (K : forall r, mapr out_bytes (map out_of outs) = Ok r <-> Forall (fun o => s_lock o <> []) outs /\ r = map consensus_out outs).
  { clear - Fo. induction Fo as [|o l L F IH]; intros r; cbn [map mapr].
    - split; [intros E; split; [constructor|congruence]|intros [_ ->]; reflexivity].
    - split.
      + intros E. apply bind_ok in E as (x & Ex & E). apply bind_ok in E as (t & Et & E). apply out_bytes_iff in Ex as [N ->]; [|exact L]. apply IH in Et as [A ->]. split; [constructor; assumption|congruence].
      + intros [A ->]. apply Forall_cons_iff in A as [N A]. rewrite (proj2 (out_bytes_iff o _ L) (conj N eq_refl)). cbn [bind]. rewrite (proj2 (IH _) (conj A eq_refl)). reflexivity. }
  assert (W : map (fun i => wire_in i (in_pub i)) (map in_of ins) = map consensus_in ins).
  { rewrite map_map. apply map_ext_in. intros s Hs. rewrite Forall_forall in Fi. destruct (Fi s Hs) as [_ Q]. unfold wire_in, consensus_in. cbn [in_pub in_of in_txid in_vout in_seq]. rewrite Q. reflexivity. }
  rewrite W. assert (Q : forall n : Z, 1 <= n <= 252 -> u8 n = n /\ compact_size n = [n]). { intros n Hn. unfold u8, compact_size. rewrite Z.mod_small by lia. replace (n <? 253) with true by lia. auto. }
  destruct (Q _ Ni) as [Q1 Q2]. destruct (Q _ No) as [Q3 Q4]. rewrite Q1, Q3. unfold consensus_tx. rewrite Q2, Q4.
  destruct (mapr out_bytes (map out_of outs)) as [r| |]; cbn [bind].
  - destruct (proj1 (K r) eq_refl) as [A ->]. cbn [concat app]. split; [intros X; split; [exact A|]; assert (b = le_bytes 4 version ++ zlen ins :: concat (map consensus_in ins) ++ zlen outs :: concat (map consensus_out outs) ++ le_bytes 4 lt) by congruence; assumption|intros [_ ->]; reflexivity].
  - split; [discriminate|]. intros [A _]. assert (X : Err = Ok (map consensus_out outs)) by (apply K; auto). discriminate.
  - split; [discriminate|]. intros [A _]. assert (X : Panic = Ok (map consensus_out outs)) by (apply K; auto). discriminate.
Qed.
Lemma new_ins_iff lt r vins l : (exists i, new_ins vins = Ok i /\ l = map (set_sequence lt r) i) <-> vins <> [] /\ exists ins, Forall2 (spends lt r) vins ins /\ l = map in_of ins.
Proof.
  unfold new_ins. split.
  - intros (i & E & ->). destruct vins as [|v vs]; [discriminate|]. split; [discriminate|]. replace (zlen (v :: vs) =? 0) with false in E by (pose proof (zlen_nonneg vs); rewrite zlen_cons; lia).
    apply mapr_forall2 in E. destruct (proj1 (made_inputs lt r (v :: vs) (map (set_sequence lt r) i))) as (ins & A & B).
    + apply Forall2_map_r. eapply Forall2_impl'; [|exact E]. intros x y Q. apply new_in_ok in Q as [M _]. apply set_sequence_made. exact M.
    + exists ins. split; assumption.
  - intros (N & ins & F & ->). pose proof (zlen_pos _ N). replace (zlen vins =? 0) with false by lia.
    assert (Fi : Forall2 (fun v i => made_in v i /\ in_seq i = le_bytes 4 (sequence lt r)) vins (map in_of ins)) by (apply made_inputs; eauto).
    set (clr := fun i => {| in_type := in_type i; in_txid := in_txid i; in_vout := in_vout i; in_pub := in_pub i; in_sig := in_sig i; in_seq := []; in_multi := in_multi i |}).
    exists (map clr (map in_of ins)). split.
    + apply mapr_forall2. apply Forall2_map_r. eapply Forall2_impl'; [|exact Fi]. intros v i [M _]. apply new_in_ok. split; [exact M|reflexivity].
    + clear - Fi. revert Fi. generalize (map in_of ins). clear ins. induction vins as [|v vs IH]; intros l F; inversion F as [|? i ? is [M S0] F']; subst; [reflexivity|].
      cbn [map]. f_equal; [destruct i; cbn in *; unfold set_sequence; cbn; rewrite S0; reflexivity|]. apply IH; assumption.
Qed.
(** Creation of a transaction whose outputs are those of [P]. *)
Lemma create_v_iff version outs vins lt r (P : list spec_out -> Prop) hexs : Forall vin_typed vins -> zlen vins <= 252 ->
  (forall l, outs = Ok l <-> exists so, l = map out_of so /\ P so) -> (forall so, P so -> holds so) ->
  create_v version outs vins lt r = Ok hexs <->
  vins <> [] /\ exists ins so, Forall2 (spends lt r) vins ins /\ P so /\ Forall (fun o => s_lock o <> []) so /\ hexs = hex_encode (consensus_tx version ins so lt).
Proof.
  intros TI Ni O W. unfold create_v. split.
  - intros E. apply bind_ok in E as (i & Ei & E). cbv zeta in E. apply bind_ok in E as (l & El & E). apply bind_ok in E as (b & Eb & E). assert (hexs = hex_encode b) by congruence. subst hexs. clear E.
    apply O in El as (so & -> & Q). destruct (proj1 (new_ins_iff lt r vins (map (set_sequence lt r) i))) as (N & ins & Fi & Em); [eauto|]. rewrite Em in Eb.
    destruct (W _ Q) as [Nb Fb]. destruct (spends_ok _ _ _ _ TI Fi) as (S1 & _ & _). pose proof (zlen_pos _ N). pose proof (Forall2_len _ _ _ Fi) as Le.
    change (tx_bytes false (tx_of version ins so lt) = Ok b) in Eb. apply tx_bytes_iff in Eb as [Ne ->]; [|lia|exact Nb|exact S1|eapply Forall_impl; [|exact Fb]; cbn; tauto].
    split; [exact N|]. exists ins, so. auto.
  - intros (N & ins & so & Fi & Q & Ne & ->). destruct (proj2 (new_ins_iff lt r vins (map in_of ins))) as (i & Ei & Em); [eauto|]. rewrite Ei. cbn [bind]. rewrite <- Em.
    rewrite (proj2 (O (map out_of so)) ltac:(eauto)). cbn [bind]. destruct (W _ Q) as [Nb Fb]. destruct (spends_ok _ _ _ _ TI Fi) as (S1 & _ & _). pose proof (zlen_pos _ N). pose proof (Forall2_len _ _ _ Fi) as Le.
    change (tx_bytes false _) with (tx_bytes false (tx_of version ins so lt)). rewrite (proj2 (tx_bytes_iff version ins so lt (consensus_tx version ins so lt) ltac:(lia) Nb S1 ltac:(eapply Forall_impl; [|exact Fb]; cbn; tauto))); auto.
Qed.
Lemma consensus_wire version ins so lt : 1 <= zlen ins <= 252 -> Forall (fun s => s_script s = []) ins -> holds so -> consensus_tx version ins so lt = wire_spec_tx version ins so lt.
Proof.
  intros Ni Fi [No Fo]. unfold consensus_tx, wire_spec_tx, compact_size at 1 2. replace (zlen ins <? 253) with true by lia. replace (zlen so <? 253) with true by lia. cbn [app].
  replace (map consensus_in ins) with (map wire_spec_in ins).
  2: { apply map_ext_in. intros s Hs. rewrite Forall_forall in Fi. unfold wire_spec_in, consensus_in. rewrite (Fi s Hs). reflexivity. }
  replace (map consensus_out so) with (map wire_spec_out so); [reflexivity|].
  apply map_ext_in. intros s Hs. rewrite Forall_forall in Fo. destruct (Fo s Hs) as (_ & _ & Q). unfold wire_spec_out, consensus_out, compact_size. replace (zlen (s_lock s) <? 253) with true by lia. reflexivity.
Qed.
(** The created text is read back to the same inputs and outputs, and to nothing if bytes follow. *)
Lemma created_v_reads version vins ins so lt r sw : 0 <= version < 2 ^ 32 -> 0 <= lt < 2 ^ 32 -> Forall vin_typed vins -> vins <> [] -> zlen vins <= 252 ->
  Forall2 (spends lt r) vins ins -> holds so -> Forall (fun o => s_lock o <> []) so ->
  let b := consensus_tx version ins so lt in
  hex_decode (hex_encode b) = Ok b /\ shows version ins so lt (tx_of version ins so lt) /\
  (forall extra, decode_v version (b ++ extra) sw = match extra with [] => Ok (tx_of version ins so lt) | _ => Err end).
Proof.
  intros Hv Hl TI N Ni Fi Ho Ne. cbv zeta. destruct (spends_ok _ _ _ _ TI Fi) as (S1 & S2 & S3). pose proof (zlen_pos _ N). pose proof (Forall2_len _ _ _ Fi) as Le.
  rewrite consensus_wire; [|lia|eapply Forall_impl; [|exact S1]; cbn; tauto|exact Ho]. destruct Ho as [No Fo]. split; [|split].
  - apply hex_decode_encode. rewrite <- trunc_small by lia. apply trunc_bytes.
    + eapply Forall_impl; [|exact (Forall_both _ _ _ S1 S3)]. cbn. tauto.
    + eapply Forall_impl; [|exact Fo]. cbn. intros s (_ & ? & ?). split; [assumption|lia].
  - apply shows_tx_of; try assumption. eapply Forall_impl; [|exact Fo]. cbn. tauto.
  - intros extra. apply decode_wire_spec_v; try assumption; try lia. eapply Forall_impl; [|exact (Forall_both _ _ _ Fo Ne)]. cbn. intros s [(_ & _ & ?) Q]. pose proof (zlen_pos _ Q). lia.
Qed.
(** Outputs made one for one from the requests. *)
Lemma outs_of {A} (f : A -> res txout) (P : A -> spec_out -> Prop) (D : A -> Prop) l : Forall D l ->
  (forall x o, D x -> f x = Ok o <-> exists s, o = out_of s /\ P x s) ->
  forall r, mapr f l = Ok r <-> exists so, r = map out_of so /\ Forall2 P l so.
Proof.
  intros FD Q. induction FD as [|x l Dx FD IH]; intros r; cbn [mapr].
  - split; [intros E; exists []; split; [injection E as <-; reflexivity|constructor]|intros (so & -> & F); inversion F; reflexivity].
  - split.
    + intros E. apply bind_ok in E as (o & Eo & E). apply bind_ok in E as (t & Et & E). apply Q in Eo as (s & -> & Ps); [|exact Dx]. apply IH in Et as (so & -> & F). exists (s :: so). split; [injection E as <-; reflexivity|constructor; assumption].
    + intros (so & -> & F). inversion F as [|? s ? ss Ps F']; subst. cbn [map]. rewrite (proj2 (Q x (out_of s) Dx)) by eauto. cbn [bind]. rewrite (proj2 (IH (map out_of ss))) by eauto. reflexivity.
Qed.
