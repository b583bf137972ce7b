(** Specification vocabulary and lemmas for hashing, signing and checking in the packages derived from btcTransaction
    (theorems in FamSigProps.v). *)
From Coq Require Import String ZArith List Bool Lia ZifyBool ZifyNat.
From Verif Require Import Go GoFacts GoFacts2 Rd Base58Model Base58Spec Base58CheckModel Base58CheckSpec Base58CheckProofs Base58CheckProps
  Bech32Model Bech32Spec Bech32Text BtcModel BtcSpec BtcProofs BtcTxProofs BtcTxProps BtcSigProps SigModel SigDerProps BtcVerModel BtcVerProps FamModel FamProofs FamTxProps.
Import ListNotations.
Open Scope Z_scope.
Ltac Zify.zify_post_hook ::= idtac.

(** ** Specification *)
(** The legacy and the BIP143 message with a hash type [t]. *)
Definition legacy_typed (t version : Z) (ins : list spec_in) (outs : list spec_out) (lockTime : Z) (n : nat) (script : bytes) : bytes :=
  consensus_tx version (spec_scripts_only_at n script ins) outs lockTime ++ le_bytes 4 t.
Definition bip143_typed (t : Z) (H : bytes -> bytes) (version : Z) (ins : list spec_in) (outs : list spec_out) (lockTime : Z) (i : spec_in) (code : bytes) (amount : Z) : bytes :=
  le_bytes 4 version ++
  H (concat (map (fun i => s_txid i ++ le_bytes 4 (s_vout i)) ins)) ++
  H (concat (map (fun i => le_bytes 4 (s_seq i)) ins)) ++
  s_txid i ++ le_bytes 4 (s_vout i) ++
  compact_size (zlen code) ++ code ++
  le_bytes 8 amount ++
  le_bytes 4 (s_seq i) ++
  H (concat (map consensus_out outs)) ++
  le_bytes 4 lockTime ++ le_bytes 4 t.
(** Results with a hash type: the hash of message [m] and who must sign. *)
Definition single_t (t : Z) (H : bytes -> bytes) (m : bytes) (a : list Z) : txhash :=
  {| th_hash := hex_encode (H m); th_required := 0; th_normal := Some {| n_addr := a; n_sigtype := t; n_sp := no_sigpub |}; th_multi := [] |}.
Definition multi_t (t : Z) (H : bytes -> bytes) (m : bytes) (required : Z) (keys : list bytes) : txhash :=
  {| th_hash := hex_encode (H m); th_required := required; th_normal := None;
     th_multi := map (fun k => {| m_pub := hex_encode k; m_sigtype := t; m_sp := no_sigpub |}) keys |}.
(** [hexs] is the hex text of the transaction with these inputs, without scripts, and these outputs. *)
Definition unsigned (version : Z) (ins : list spec_in) (outs : list spec_out) (lt : Z) (hexs : list Z) : Prop :=
  1 <= zlen ins <= 252 /\ Forall (fun s => zlen (s_txid s) = 32 /\ is_bytes (s_txid s) /\ s_script s = []) ins /\
  holds outs /\ Forall (fun o => s_lock o <> []) outs /\ hexs = hex_encode (consensus_tx version ins outs lt).

(** ** Lemmas *)
Lemma unsigned_facts version ins outs lt hexs sw : 0 <= version < 2 ^ 32 -> unsigned version ins outs lt hexs ->
  hex_decode hexs = Ok (consensus_tx version ins outs lt) /\ decode_v version (consensus_tx version ins outs lt) sw = Ok (tx_of version ins outs lt) /\
  Forall (fun s => zlen (s_txid s) = 32) ins /\ Forall (fun s => 1 <= zlen (s_lock s) <= 252) outs /\ 1 <= zlen outs <= 252 /\ is_bytes (wire_spec_tx version ins outs lt).
Proof.
  intros Hv (Ni & Fi & Ho & Ne & ->). assert (W : consensus_tx version ins outs lt = wire_spec_tx version ins outs lt) by (apply consensus_wire; try assumption; eapply Forall_impl; [|exact Fi]; cbn; tauto).
  rewrite W. destruct Ho as [No Fo].
  assert (F1 : Forall (fun s => 1 <= zlen (s_lock s) <= 252) outs) by (eapply Forall_impl; [|exact (Forall_both _ _ _ Fo Ne)]; cbn; intros s [(_ & _ & ?) Q]; pose proof (zlen_pos _ Q); lia).
  assert (B : is_bytes (wire_spec_tx version ins outs lt)).
  { rewrite <- trunc_small by lia. apply trunc_bytes.
    + eapply Forall_impl; [|exact Fi]. cbn. tauto.
    + eapply Forall_impl; [|exact Fo]. cbn. intros s (_ & ? & ?). split; [assumption|lia]. }
  split; [apply hex_decode_encode; exact B|]. split; [|split; [eapply Forall_impl; [|exact Fi]; cbn; tauto|]].
  - rewrite <- (app_nil_r (wire_spec_tx version ins outs lt)). rewrite decode_wire_spec_v; try assumption; try lia; [reflexivity|eapply Forall_impl; [|exact Fi]; cbn; tauto|]. eapply Forall_impl; [|exact F1]. cbn. lia.
  - auto.
Qed.
(** What a package creates is such a text. *)
Lemma created_unsigned version (P P' : list spec_out -> Prop) vins lt r hexs : Forall vin_typed vins -> zlen vins <= 252 ->
  (forall so, P so -> holds so) -> (forall so, P' so <-> P so /\ Forall (fun o => s_lock o <> []) so) ->
  created version P' vins lt r hexs -> exists ins outs, Forall2 (spends lt r) vins ins /\ P' outs /\ unsigned version ins outs lt hexs.
Proof.
  intros TI Ni W Q (N & ins & so & Fi & Ps & E). exists ins, so. split; [exact Fi|]. split; [exact Ps|]. apply Q in Ps as [Ps Ne]. destruct (spends_ok _ _ _ _ TI Fi) as (S1 & S2 & S3). pose proof (zlen_pos _ N). pose proof (Forall2_len _ _ _ Fi) as Le.
  split; [lia|]. split; [|split; [apply W; exact Ps|split; assumption]]. eapply Forall_impl; [|exact (Forall_both _ _ _ S1 S3)]. cbn. tauto.
Qed.
Lemma legacy_bytes_v t version sw ins outs lt n script : 1 <= zlen ins <= 252 -> 1 <= zlen outs <= 252 -> zlen script <= 252 ->
  Forall (fun s => zlen (s_txid s) = 32) ins -> Forall (fun s => 1 <= zlen (s_lock s) <= 252) outs ->
  (b <- tx_bytes sw (set_vins (upd (tx_vins (tx_of version ins outs lt)) n (set_pub script)) (tx_of version ins outs lt)) ;; Ok (b ++ le32 t)) = Ok (legacy_typed t version ins outs lt n script).
Proof.
  intros Ni No Ls Fi Fo. unfold set_vins, tx_of. cbn [tx_version tx_vins tx_vouts tx_locktime tx_witness]. rewrite scripts_upd.
  destruct (scripts_facts n script ins Fi Ls) as [LL FF]. rewrite tx_bytes_with by (rewrite ?LL; assumption). reflexivity.
Qed.
Lemma segwit_of_v t H version ins outs lt redeem code i amount : script_code redeem = Ok code -> zlen code <= 252 -> Forall (fun s => 1 <= zlen (s_lock s) <= 252) outs ->
  (b <- segwit_bytes H (tx_of version ins outs lt) redeem (in_of i) amount ;; Ok (b ++ le32 t)) =
  if amount =? 0 then Err else Ok (bip143_typed t H version ins outs lt i code amount).
Proof.
  intros E L Fo. unfold segwit_bytes. rewrite E. cbn [bind]. destruct (amount =? 0); [reflexivity|]. cbn [bind]. pose proof (zlen_nonneg code).
  assert (O1 : outputs (tx_of version ins outs lt) = concat (map consensus_out outs)).
  { unfold outputs, tx_of. cbn [tx_vouts]. rewrite map_map. f_equal. apply map_ext_in. intros s Hs. rewrite Forall_forall in Fo. pose proof (Fo s Hs). unfold consensus_out. rewrite compact_small by lia. cbn [out_of out_amount out_lock]. rewrite u8_small by lia. reflexivity. }
  assert (O2 : prevouts (tx_of version ins outs lt) = concat (map (fun i => s_txid i ++ le_bytes 4 (s_vout i)) ins)) by (unfold prevouts, tx_of; cbn [tx_vins]; rewrite map_map; reflexivity).
  assert (O3 : sequences (tx_of version ins outs lt) = concat (map (fun i => le_bytes 4 (s_seq i)) ins)) by (unfold sequences, tx_of; cbn [tx_vins]; rewrite map_map; reflexivity).
  rewrite O1, O2, O3. unfold bip143_typed. rewrite compact_small by exact L. rewrite u8_small by lia. cbn [in_of in_txid in_vout in_seq tx_of tx_version tx_locktime]. 
  rewrite <- !app_assoc. cbn [app]. rewrite <- !app_assoc. reflexivity.
Qed.
(** Hashing one input, after its scripts were classified. *)
Section Kinds.
Variables (K : coin) (H : bytes -> bytes) (ins : list spec_in) (outs : list spec_out) (lt : Z) (sw : bool) (ap : addr_prefix).
Hypothesis Ni : 1 <= zlen ins <= 252.
Hypothesis No : 1 <= zlen outs <= 252.
Hypothesis Fi : Forall (fun s => zlen (s_txid s) = 32) ins.
Hypothesis Fo : Forall (fun s => 1 <= zlen (s_lock s) <= 252) outs.
Notation t := (tx_of (k_version K) ins outs lt).
Definition after (lock redeem : bytes) (ty sigType : Z) (n : nat) (amount : Z) : res txhash :=
  b <- bytes_for_sig_v K H t lock redeem ty sigType n amount sw ;; new_txhash_v K H (H b) lock redeem ty sigType ap.
Lemma after_inv lock redeem ty sigType n amount th : after lock redeem ty sigType n amount = Ok th -> exists i, nth_error ins n = Some i /\ sigType = k_all K.
Proof.
  unfold after, bytes_for_sig_v. cbn [tx_of tx_vins]. rewrite nth_error_map. destruct (nth_error ins n) as [i|]; cbn [option_map]; [|discriminate].
  intros E. exists i. split; [reflexivity|]. destruct (sigType =? k_all K) eqn:S; [lia|discriminate].
Qed.
Variables (n : nat) (i : spec_in).
Hypothesis En : nth_error ins n = Some i.
Ltac start := unfold after, bytes_for_sig_v; cbn [tx_of tx_vins]; rewrite nth_error_map, En; cbn [option_map]; rewrite Z.eqb_refl; cbn [negb];
  change {| tx_version := le_bytes 4 (k_version K); tx_vins := map in_of ins; tx_vouts := map out_of outs; tx_locktime := le_bytes 4 lt; tx_witness := false |} with t;
  change (map in_of ins) with (tx_vins t).
Lemma after_p2pkh lock redeem amount : k_fork K = false -> zlen lock <= 252 ->
  after lock redeem TypeP2PKH (k_all K) n amount = (h <- slice lock 3 23 ;; a <- k_address K H ap h ;; Ok (single_t (k_all K) H (legacy_typed (k_all K) (k_version K) ins outs lt n lock) a)).
Proof. intros Kf L. start. change (TypeP2PKH =? TypeP2PKH) with true. cbv iota. rewrite Kf, legacy_bytes_v by assumption. reflexivity. Qed.
Lemma after_p2pkh_fork lock redeem amount : k_fork K = true -> script_code lock = Ok lock -> zlen lock <= 252 ->
  after lock redeem TypeP2PKH (k_all K) n amount = if amount =? 0 then Err else (h <- slice lock 3 23 ;; a <- k_address K H ap h ;; Ok (single_t (k_all K) H (bip143_typed (k_all K) H (k_version K) ins outs lt i lock amount) a)).
Proof. intros Kf C L. start. change (TypeP2PKH =? TypeP2PKH) with true. cbv iota. rewrite Kf, (segwit_of_v _ _ _ _ _ _ _ lock) by assumption. destruct (amount =? 0); reflexivity. Qed.
Lemma after_p2wpkh lock redeem code amount : script_code (if k_fork K then lock else redeem) = Ok code -> zlen code <= 252 ->
  after lock redeem TypeP2WPKH (k_all K) n amount = if amount =? 0 then Err else (h <- slice lock 2 22 ;; a <- encode_check bitcoin_al H (p_p2wpkh ap) h ;; Ok (single_t (k_all K) H (bip143_typed (k_all K) H (k_version K) ins outs lt i code amount) a)).
Proof. intros C L. start. change (TypeP2WPKH =? TypeP2PKH) with false. change (TypeP2WPKH =? TypeP2WPKH) with true. cbv iota. rewrite (segwit_of_v _ _ _ _ _ _ _ code) by assumption. destruct (amount =? 0); reflexivity. Qed.
Lemma after_bech32 lock redeem code amount : script_code lock = Ok code -> zlen code <= 252 ->
  after lock redeem TypeBech32 (k_all K) n amount = if amount =? 0 then Err else if k_bech32 K then (h <- slice_from lock 2 ;; a <- bech32_encode (p_bech32 ap) bech32_alphabet h (Some [0]) ;; Ok (single_t (k_all K) H (bip143_typed (k_all K) H (k_version K) ins outs lt i code amount) a)) else Panic.
Proof. intros C L. start. change (TypeBech32 =? TypeP2PKH) with false. change (TypeBech32 =? TypeP2WPKH) with false. change (TypeBech32 =? TypeBech32) with true. cbv iota. rewrite (segwit_of_v _ _ _ _ _ _ _ code) by assumption. destruct (amount =? 0); reflexivity. Qed.
Lemma after_multi lock redeem amount th : is_bytes redeem -> zlen redeem <= 252 ->
  after lock redeem TypeMultiSig (k_all K) n amount = Ok th <->
  exists required keys, multisig_form required keys redeem /\
    (sw = false /\ th = multi_t (k_all K) H (legacy_typed (k_all K) (k_version K) ins outs lt n redeem) required keys \/
     sw = true /\ amount <> 0 /\ th = multi_t (k_all K) H (bip143_typed (k_all K) H (k_version K) ins outs lt i redeem amount) required keys).
Proof.
  intros B L. start. change (TypeMultiSig =? TypeP2PKH) with false. change (TypeMultiSig =? TypeP2WPKH) with false. change (TypeMultiSig =? TypeBech32) with false. cbv iota.
  assert (Q : forall b, new_txhash_v K H (H b) lock redeem TypeMultiSig (k_all K) ap = Ok th <-> exists required keys, multisig_form required keys redeem /\ th = multi_t (k_all K) H b required keys).
  { intros b. unfold new_txhash_v. cbv zeta. change (TypeMultiSig =? TypeP2PKH) with false. change (TypeMultiSig =? TypeP2WPKH) with false. change (TypeMultiSig =? TypeBech32) with false. cbv iota. split.
    - intros E. apply bind_ok in E as ([m ks] & Em & E). apply multi_details_iff in Em; [|exact B]. exists m, ks. split; [exact Em|]. unfold multi_t. congruence.
    - intros (m & ks & Em & ->). apply multi_details_iff in Em; [|exact B]. rewrite Em. reflexivity. }
  destruct sw; cbv iota; split.
  - intros E. apply bind_ok in E as (b & Eb & E). apply Q in E as (m & ks & Em & ->). exists m, ks. split; [exact Em|]. right.
    rewrite (segwit_of_v _ _ _ _ _ _ _ redeem) in Eb by (try assumption; eapply code_multi; eassumption). destruct (amount =? 0) eqn:A; [discriminate|]. assert (b = bip143_typed (k_all K) H (k_version K) ins outs lt i redeem amount) by congruence. subst b. split; [reflexivity|]. split; [lia|reflexivity].
  - intros (m & ks & Em & [[X _]|(_ & A & ->)]); [discriminate X|]. rewrite (segwit_of_v _ _ _ _ _ _ _ redeem) by (try assumption; eapply code_multi; eassumption). replace (amount =? 0) with false by lia. cbn [bind]. apply Q. eauto.
  - intros E. apply bind_ok in E as (b & Eb & E). apply Q in E as (m & ks & Em & ->). exists m, ks. split; [exact Em|]. left.
    rewrite legacy_bytes_v in Eb by assumption. assert (b = legacy_typed (k_all K) (k_version K) ins outs lt n redeem) by congruence. subst b. split; reflexivity.
  - intros (m & ks & Em & [[_ ->]|(X & _)]); [|discriminate X]. rewrite legacy_bytes_v by assumption. cbn [bind]. apply Q. eauto.
Qed.
End Kinds.
(** The loop over the inputs, from what holds for one. *)
Definition one_v (K : coin) (H : bytes -> bytes) (ins : list spec_in) (outs : list spec_out) (lt : Z) (sw : bool) (ap : addr_prefix) (n : nat) (u : unlock) : res txhash :=
  '(lock, redeem, ty) <- k_check K (u_lock u) (u_redeem u) ;; after K H ins outs lt sw ap lock redeem ty (u_sigtype u) n (u_amount u).
Lemma hashes_v_iff K H ap sw ins outs lt hexs (R : nat -> unlock -> txhash -> Prop) (D : unlock -> Prop) : 0 <= k_version K < 2 ^ 32 -> unsigned (k_version K) ins outs lt hexs ->
  (forall n u th, D u -> one_v K H ins outs lt sw ap n u = Ok th <-> R n u th) -> forall us, Forall D us -> forall hs,
  (create_hashes_v K H hexs us sw ap = Ok hs <-> zlen us = zlen ins /\ pointwise R 0 us hs) /\
  (zlen us = zlen ins /\ pointwise R 0 us hs -> hashes_for_sig_v K H (tx_of (k_version K) ins outs lt) us sw ap = Ok hs).
Proof.
  intros Hv U One us Du hs. destruct (unsigned_facts _ _ _ _ _ sw Hv U) as (E1 & E2 & F1 & F2 & No & _). destruct U as (Ni & _).
  assert (L : forall us n hs, Forall D us -> hashes_loop_v K H (tx_of (k_version K) ins outs lt) sw ap n us = Ok hs <-> pointwise R n us hs).
  { clear us Du hs. induction us as [|u us IH]; intros n hs F.
    - cbn [hashes_loop_v]. split; intros E; [assert (hs = []) by congruence; subst; constructor|inversion E; reflexivity].
    - apply Forall_cons_iff in F as [Fu F]. cbn [hashes_loop_v]. cbv zeta.
      replace (set_vins (map set_empty (tx_vins (tx_of (k_version K) ins outs lt))) (tx_of (k_version K) ins outs lt)) with (tx_of (k_version K) ins outs lt) by (unfold set_vins, tx_of; cbn [tx_version tx_vins tx_vouts tx_locktime tx_witness]; rewrite set_empty_of; reflexivity).
      pose proof (One n u) as On. unfold one_v, after in On. split; intros E.
      + apply bind_ok in E as ([[l r] ty] & Ec & E). apply bind_ok in E as (b & Eb & E). apply bind_ok in E as (th & Et & E). apply bind_ok in E as (hs' & Er & E).
        assert (hs = th :: hs') by congruence. subst hs. constructor; [|apply IH; assumption]. apply On; [exact Fu|]. rewrite Ec. cbn [bind]. rewrite Eb. exact Et.
      + inversion E as [|? ? th ? hs' Ot Er]; subst. apply On in Ot; [|exact Fu]. apply bind_ok in Ot as ([[l r] ty] & Ec & Ot). apply bind_ok in Ot as (b & Eb & Et).
        rewrite Ec. cbn [bind]. rewrite Eb. cbn [bind]. rewrite Et. cbn [bind]. apply IH in Er; [|exact F]. rewrite Er. reflexivity. }
  unfold create_hashes_v. rewrite E1. cbn [bind]. rewrite E2. cbn [bind]. unfold hashes_for_sig_v. cbn [tx_of tx_vins tx_vouts]. rewrite !zlen_map. replace (zlen outs =? 0) with false by lia.
  change {| tx_version := le_bytes 4 (k_version K); tx_vins := map in_of ins; tx_vouts := map out_of outs; tx_locktime := le_bytes 4 lt; tx_witness := false |} with (tx_of (k_version K) ins outs lt).
  destruct (zlen ins =? zlen us) eqn:EQ; cbn [negb].
  - replace ((zlen ins =? 0) || false) with false by lia. rewrite L by assumption. split; [split; [intros Q; split; [lia|exact Q]|intros [_ Q]; exact Q]|intros [_ Q]; exact Q].
  - rewrite orb_true_r. split; [split; [discriminate|lia]|lia].
Qed.
(** Insertion and check, for single-key inputs. *)
Definition single_kind (K : coin) (ins : list spec_in) (k : nat) (u : unlock) (th : txhash) : Prop :=
  exists lock redeem ty i, nth_error ins k = Some i /\ k_check K (u_lock u) (u_redeem u) = Ok (lock, redeem, ty) /\
    (ty = TypeP2PKH \/ ty = TypeP2WPKH \/ ty = TypeBech32) /\ (ty = TypeP2WPKH -> zlen redeem = 22) /\
    exists h a, th = {| th_hash := h; th_required := 0; th_normal := Some {| n_addr := a; n_sigtype := k_all K; n_sp := no_sigpub |}; th_multi := [] |}.
Lemma items_of_v K ins : is_byte (k_all K) -> Forall (fun s => zlen (s_txid s) = 32) ins -> forall us hs k, pointwise (single_kind K ins) k us hs ->
  forall sps, length sps = length hs -> Forall good_sp sps -> (k + length us = length ins)%nat ->
  exists its, map it_in its = skipn k ins /\ map it_u its = us /\ map it_th its = hs /\ map it_sp its = sps /\ Forall (ok_item (k_check K) (k_all K)) its.
Proof.
  intros Ba F us hs k P. induction P as [k|k u th us hs Hu P IH]; intros sps L G N.
  - destruct sps; [|discriminate L]. exists []. cbn [map]. rewrite skipn_all2 by (cbn in N; lia). repeat split; constructor.
  - destruct sps as [|sp sps]; [discriminate L|]. apply Forall_cons_iff in G as [G0 G]. cbn [length] in *.
    destruct (IH sps ltac:(lia) G ltac:(lia)) as (its & E1 & E2 & E3 & E4 & OK). clear IH.
    destruct (pushes_of (k_all K) sp Ba G0) as (e & Q1 & Q2 & Q3 & Q4 & Q5). destruct G0 as (B & Ls & _ & _ & _ & Lp).
    destruct Hu as (lock & redeem & ty & i & En & W1 & W2 & W3 & W4).
    exists ({| it_in := i; it_u := u; it_th := th; it_sp := sp; it_ty := ty; it_lock := lock; it_redeem := redeem; it_e := e |} :: its). cbn [map it_in it_u it_th it_sp].
    split; [|split; [congruence|split; [congruence|split; [congruence|]]]].
    + rewrite E1. clear - En. revert ins En. induction k as [|k IH]; intros [|j ins] En; try discriminate; cbn [nth_error] in En.
      * injection En as ->. reflexivity.
      * cbn [skipn]. destruct ins; [destruct k; discriminate|]. exact (IH _ En).
    + constructor; [|exact OK]. unfold ok_item. cbn [it_in it_u it_th it_sp it_ty it_lock it_redeem it_e].
      split; [rewrite Forall_forall in F; apply F; eapply nth_error_In; exact En|]. split; [exact W1|]. split; [exact W2|]. split; [exact W3|]. split; [exact W4|].
      split; [unfold zlen; lia|]. split; [unfold zlen; lia|]. split; [exact Q1|]. split; [exact Q2|]. split; [exact Q3|]. split; [exact Q4|exact Q5].
Qed.
Lemma signed_shape_v K sha ins outs lt hexs us sw hs sps : 0 <= k_version K < 2 ^ 32 -> is_byte (k_all K) -> unsigned (k_version K) ins outs lt hexs ->
  zlen us = zlen ins -> pointwise (single_kind K ins) 0 us hs -> length sps = length hs -> Forall good_sp sps ->
  exists its, map it_in its = ins /\ map it_u its = us /\ map it_th its = hs /\ map it_sp its = sps /\ Forall (ok_item (k_check K) (k_all K)) its /\
    insert_signatures_v K sha hexs (sign_all hs sps) us sw =
      if segwit_of_items its && negb sw then Err
      else Ok (hex_encode (signed_bytes (segwit_of_items its) (k_version K) (map (fun t => with_script (it_in t) (it_script t)) its) outs (map it_wit its) lt)).
Proof.
  intros Hv Ba U EQ P Ls G. destruct (unsigned_facts _ _ _ _ _ sw Hv U) as (D & DT & F1 & F2 & No & _). destruct U as (Ni & _).
  destruct (items_of_v K ins Ba F1 us hs 0 P sps Ls G) as (its & E1 & E2 & E3 & E4 & OK); [unfold zlen in EQ; lia|]. cbn [skipn] in E1.
  assert (Lt : zlen its = zlen ins) by (rewrite <- E1; symmetry; apply zlen_map). exists its. repeat (split; [assumption|]). subst ins us hs sps.
  unfold insert_signatures_v. rewrite D. cbn [bind]. rewrite DT. cbn [bind]. rewrite !zlen_map in *. replace (zlen its =? 0) with false by lia.
  assert (LT : zlen (sign_all (map it_th its) (map it_sp its)) = zlen its) by (unfold sign_all; rewrite zlen_map; unfold zlen; rewrite combine_length, !map_length; lia).
  rewrite LT. replace (zlen its =? 0) with false by lia. cbn [tx_of tx_vins tx_vouts tx_version tx_locktime]. rewrite !zlen_map. replace (zlen its =? 0) with false by lia. replace (zlen outs =? 0) with false by lia. rewrite Z.eqb_refl. cbn [negb].
  rewrite (is_segwit_items (k_check K) (k_all K)) by exact OK. destruct (segwit_of_items its && negb sw) eqn:SW; [reflexivity|].
  rewrite (insert_items (k_check K) (k_all K)); [|exact OK|destruct sw; [auto|right; destruct (segwit_of_items its); [discriminate|reflexivity]]]. cbn [bind].
  rewrite (tx_bytes_items (k_check K) (k_all K)) by (try assumption; lia). reflexivity.
Qed.
Lemma verify_v K H sha decompress ecdsa ap ins outs lt hexs us sw hs sps signed : 0 <= k_version K < 2 ^ 32 -> is_byte (k_all K) ->
  (forall lk rd l r ty, k_check K lk rd = Ok (l, r, ty) -> is_bytes r) -> (forall k, decompress k <> []) -> unsigned (k_version K) ins outs lt hexs ->
  zlen us = zlen ins -> pointwise (single_kind K ins) 0 us hs -> hashes_for_sig_v K H (tx_of (k_version K) ins outs lt) us sw ap = Ok hs -> length sps = length hs -> Forall good_sp sps ->
  insert_signatures_v K sha hexs (sign_all hs sps) us sw = Ok signed ->
  verify_raw_v K H decompress ecdsa signed us sw ap = Ok (read_valid (k_all K) decompress ecdsa hs sps).
Proof.
  intros Hv Ba CB HD U EQ P HS Ls G I. destruct (signed_shape_v K sha ins outs lt hexs us sw hs sps Hv Ba U EQ P Ls G) as (its & E1 & E2 & E3 & E4 & OK & I').
  destruct (unsigned_facts _ _ _ _ _ sw Hv U) as (_ & _ & F1 & F2 & No & BB). destruct U as (Ni & _).
  assert (Lt : zlen its = zlen ins) by (rewrite <- E1; symmetry; apply zlen_map).
  rewrite I' in I. destruct (segwit_of_items its && negb sw) eqn:SW; [discriminate|]. apply (f_equal (fun x => match x with Ok v => v | _ => [] end)) in I. cbv beta iota in I. subst signed.
  assert (Bb : is_bytes (signed_bytes (segwit_of_items its) (k_version K) (map (fun t => with_script (it_in t) (it_script t)) its) outs (map it_wit its) lt)).
  { apply (signed_is_bytes (k_check K) (k_all K)); try assumption; try lia; [rewrite E1; exact BB|rewrite E4; exact G]. }
  unfold verify_raw_v. rewrite hex_decode_encode by exact Bb. cbn [bind]. rewrite (decode_items (k_check K) (k_all K)) by (try assumption; lia). cbn [bind tx_vins].
  rewrite <- E2 at 1. rewrite !zlen_map, Z.eqb_refl. cbn [negb]. unfold clone_empty. cbn [tx_version tx_vins tx_vouts tx_locktime]. rewrite map_in_of_dec.
  rewrite E1. change {| tx_version := le_bytes 4 (k_version K); tx_vins := map in_of ins; tx_vouts := map out_of outs; tx_locktime := le_bytes 4 lt; tx_witness := false |} with (tx_of (k_version K) ins outs lt).
  rewrite HS. cbn [bind]. rewrite <- E3 at 1. rewrite (fill_items (k_check K) (k_all K)) by assumption. rewrite E3, E4. reflexivity.
Qed.
