(** Specification vocabulary and lemmas for created Bitcoin transactions (theorems in BtcTxProps.v). *)
From Coq Require Import ZArith List Bool Lia ZifyBool ZifyNat.
From Verif Require Import Go GoFacts GoFacts2 Rd Base58Model Base58Spec Base58Proofs Base58Props Base58CheckModel Base58CheckSpec Base58CheckProofs Base58CheckProps
  Digits58 AddressProofs AddressCheckProps Bech32Model Bech32Spec Bech32Proofs Bech32Text Bech32Props BtcModel BtcSpec BtcProofs SigDerProps Toy.
Import ListNotations.
Open Scope Z_scope.
Ltac Zify.zify_post_hook ::= idtac.

(** ** Specification *)
Definition begins (p s : list Z) : Prop := exists r, s = p ++ r.
(** The sequence number every input gets. *)
Definition spec_sequence (lockTime : Z) (replaceable : bool) : Z :=
  if replaceable then 4294967293 else if lockTime =? 0 then 4294967295 else 4294967294.
(** Input [i] spends output [v_vout v] of the transaction whose id is the hex text [v_txid v]. *)
Definition spends (lockTime : Z) (replaceable : bool) (v : vin) (i : spec_in) : Prop :=
  hex_decode (v_txid v) = Ok (rev (s_txid i)) /\ zlen (s_txid i) = 32 /\ s_vout i = v_vout v /\ s_script i = [] /\ s_seq i = spec_sequence lockTime replaceable.
(** [lock] is the locking script for an address of the coin. *)
Definition script_for (H : bytes -> bytes) (ap : addr_prefix) (address : list Z) (lock : bytes) : Prop :=
  (begins (p_bech32 ap) address /\ exists h, bech32_decode address = Ok h /\ lock = [0; zlen h mod 256] ++ h) \/
  (~ begins (p_bech32 ap) address /\ exists prefix h, is_bytes h /\ length h = 20%nat /\
     is_base58_of bitcoin_rs (checked H (prefix ++ h)) address /\
     (prefix = p_p2pkh ap /\ lock = p2pkh_script h \/
      prefix <> p_p2pkh ap /\ (prefix = p_p2wpkh ap \/ prefix = p_p2sh ap) /\ lock = p2sh_script h)).
Definition pays (H : bytes -> bytes) (ap : addr_prefix) (v : vout) (o : spec_out) : Prop :=
  s_amount o = v_amount v /\ script_for H ap (v_addr v) (s_lock o).
Definition prefixes_ok (ap : addr_prefix) : Prop := is_bytes (p_p2pkh ap) /\ is_bytes (p_p2wpkh ap) /\ is_bytes (p_p2sh ap).
(** Arguments of the Go types: strings of bytes, uint32 index and lock time, uint64 amount. *)
Definition vin_typed (v : vin) : Prop := 0 <= v_vout v < 2 ^ 32.
Definition vout_typed (v : vout) : Prop := is_bytes (v_addr v) /\ 0 <= v_amount v < 2 ^ 64.
(** A decoded transaction shows the given values. *)
Definition shows_in (s : spec_in) (i : txin) : Prop :=
  in_txid i = s_txid s /\ zlen (in_vout i) = 4 /\ le_num (in_vout i) = s_vout s /\ zlen (in_seq i) = 4 /\ le_num (in_seq i) = s_seq s /\ in_type i = TypeEmpty.
Definition shows_out (s : spec_out) (o : txout) : Prop :=
  zlen (out_amount o) = 8 /\ le_num (out_amount o) = s_amount s /\ out_lock o = s_lock s.
Definition shows (version : Z) (ins : list spec_in) (outs : list spec_out) (lockTime : Z) (t : tx) : Prop :=
  le_num (tx_version t) = version /\ Forall2 shows_in ins (tx_vins t) /\ Forall2 shows_out outs (tx_vouts t) /\ le_num (tx_locktime t) = lockTime /\ tx_witness t = false.

(** ** Lemmas *)
Lemma is_prefix_begins p : forall s, is_prefix p s = true <-> begins p s.
Proof.
  induction p as [|a p IH]; intros s; cbn [is_prefix].
  - split; [intros _; exists s; reflexivity|reflexivity].
  - destruct s as [|b s]; [split; [discriminate|intros [r E]; discriminate]|]. split.
    + intros E. apply andb_prop in E as [E1 E2]. apply IH in E2 as [r ->]. exists r. replace b with a by lia. reflexivity.
    + intros [r E]. injection E as -> E. rewrite Z.eqb_refl. apply IH. exists r. exact E.
Qed.
Lemma bitcoin_alphabet_ok : alphabet_ok bitcoin_rs.
Proof. apply alphabet_ok_dec. vm_compute. reflexivity. Qed.
Lemma bitcoin_al_eq : new_alphabet bitcoin_rs = Ok bitcoin_al.
Proof. vm_compute. reflexivity. Qed.
Lemma address_text H p h s : hash_ok H -> is_bytes p -> is_bytes h -> length h = 20%nat ->
  is_base58_of bitcoin_rs (checked H (p ++ h)) s <-> encode_check bitcoin_al H p h = Ok s.
Proof.
  intros HH Hp Hh L. rewrite (encode_check_eq H HH bitcoin_al) by assumption.
  assert (B : is_bytes (checked H (p ++ h))) by (apply checked_bytes; [assumption|apply is_bytes_app; auto]).
  destruct (base58_decode_encode bitcoin_rs bitcoin_al _ bitcoin_alphabet_ok bitcoin_al_eq B) as (s' & E & _).
  pose proof (base58_numeral bitcoin_rs bitcoin_al _ _ bitcoin_alphabet_ok bitcoin_al_eq B E) as N. split.
  - intros Q. rewrite E. f_equal. eapply base58_of_unique; eassumption.
  - intros Q. assert (s = s') by congruence. subst. exact N.
Qed.
Lemma beq_refl' l : beq l l = true.
Proof. apply beq_eq. reflexivity. Qed.
Lemma beq_neq a b : a <> b -> beq a b = false.
Proof. intros N. destruct (beq a b) eqn:E; [apply beq_eq in E; contradiction|reflexivity]. Qed.
Lemma new_out_iff H ap v o : hash_ok H -> prefixes_ok ap -> is_bytes (v_addr v) ->
  new_out H ap v = Ok o <-> out_amount o = le_bytes 8 (v_amount v) /\ script_for H ap (v_addr v) (out_lock o).
Proof.
  intros HH (P1 & P2 & P3) Ba. unfold new_out, script_for. destruct (is_prefix (p_bech32 ap) (v_addr v)) eqn:Pre.
  - apply is_prefix_begins in Pre. split.
    + intros E. apply bind_ok in E as (h & D & E). injection E as <-. cbn. split; [reflexivity|]. left. split; [exact Pre|]. exists h. split; [exact D|reflexivity].
    + intros [A [[_ (h & D & E)]|[N _]]]; [|contradiction]. rewrite D. cbn [bind]. destruct o; cbn in *. subst. reflexivity.
  - assert (NP : ~ begins (p_bech32 ap) (v_addr v)) by (intros Q; apply is_prefix_begins in Q; congruence). split.
    + intros E. apply bind_ok in E as ([p h] & D & E).
      destruct (decode_check_inv H HH bitcoin_rs bitcoin_alphabet_ok bitcoin_al bitcoin_al_eq _ p h Ba D) as (Bp & Bh & L & K).
      assert (Lz : zlen h = 20) by (unfold zlen; lia). rewrite Lz in E. change (negb (20 =? 20)) with false in E. cbv iota in E.
      assert (N : is_base58_of bitcoin_rs (checked H (p ++ h)) (v_addr v)) by (apply address_text; assumption).
      destruct (beq p (p_p2pkh ap)) eqn:B1.
      * apply beq_eq in B1. injection E as <-. split; [reflexivity|]. right. split; [exact NP|]. exists p, h. repeat split; auto.
      * destruct (beq p (p_p2wpkh ap) || beq p (p_p2sh ap)) eqn:B2; [|discriminate]. injection E as <-. split; [reflexivity|]. right. split; [exact NP|].
        exists p, h. repeat split; auto. right. split; [intros ->; rewrite beq_refl' in B1; discriminate|]. split; [|reflexivity].
        apply orb_prop in B2 as [B2|B2]; apply beq_eq in B2; auto.
    + intros [A [[Q _]|(_ & p & h & Bh & L & N & C)]]; [contradiction|].
      assert (Bp : is_bytes p) by (destruct C as [[-> _]|(_ & [->| ->] & _)]; assumption).
      apply address_text in N; try assumption.
      destruct (decode_check_encode_check H bitcoin_rs bitcoin_al p h HH bitcoin_alphabet_ok bitcoin_al_eq Bp Bh L) as (s & E1 & E2).
      assert (s = v_addr v) by congruence. subst s. rewrite E2. cbn [bind].
      assert (Lz : zlen h = 20) by (unfold zlen; lia). rewrite Lz. change (negb (20 =? 20)) with false. cbv iota.
      destruct o as [oa ol]. cbn [out_amount out_lock] in *. subst oa.
      destruct C as [[-> E]|(Np & Q & E)].
      * rewrite beq_refl'. subst. reflexivity.
      * rewrite beq_neq by exact Np. replace (beq p (p_p2wpkh ap) || beq p (p_p2sh ap)) with true; [subst; reflexivity|].
        symmetry. apply orb_true_intro. destruct Q as [->| ->]; rewrite beq_refl'; auto.
Qed.
Lemma rev_lookup_d5 s : forall l, rev_lookup s = Ok l -> Forall d5 l /\ zlen l = zlen s.
Proof.
  induction s as [|c s IH]; intros l E; cbn [rev_lookup] in E.
  - injection E as <-. split; [constructor|reflexivity].
  - destruct (127 <? c); [discriminate|]. apply bind_ok in E as (v & Ev & E). destruct (v =? -1) eqn:V; [discriminate|]. apply bind_ok in E as (t & Et & E). injection E as <-.
    destruct (IH t Et) as [F L]. split; [|rewrite !zlen_cons; lia]. constructor; [|exact F].
    unfold idx in Ev. destruct (c <? 0); [discriminate|]. destruct (nth_error charset_rev (Z.to_nat c)) as [w|] eqn:Q; [|discriminate]. injection Ev as ->.
    apply nth_error_In in Q. assert (A : forallb (fun v => (v =? -1) || ((0 <=? v) && (v <? 32))) charset_rev = true) by (vm_compute; reflexivity).
    rewrite forallb_forall in A. specialize (A v Q). unfold d5. lia.
Qed.
Lemma unextend_ok_two ds r : unextend_payload ds = Ok r -> (2 <= length ds)%nat.
Proof. destruct ds as [|a [|b ds]]; [discriminate|discriminate|cbn; lia]. Qed.
(** The data of a decoded bech32 text is at most 5/8 of its length. *)
Lemma bech32_decode_bound s h : bech32_decode s = Ok h -> is_bytes h /\ 8 * zlen h <= 5 * zlen s.
Proof.
  unfold bech32_decode. intros E. apply bind_ok in E as ([[lo up] ps] & _ & E). destruct (up && lo); [discriminate|]. cbv zeta in E.
  destruct (zlen s - (ps + 1) <? 0); [discriminate|]. apply bind_ok in E as (value & Ev & E). destruct (negb _); [discriminate|]. destruct (zlen value <? 6) eqn:L6; [discriminate|].
  apply bind_ok in E as (ret & Eu & E). apply rev_lookup_d5 in Ev as [F L].
  assert (L2 : zlen value <= zlen s) by (rewrite L; unfold zlen; rewrite skipn_length; lia).
  assert (D : Forall d5 (firstn (length value - 6) value)) by (apply Forall_forall; intros x Hx; rewrite Forall_forall in F; apply F; rewrite <- (firstn_skipn (length value - 6) value); apply in_or_app; left; exact Hx).
  pose proof (unextend_ok_two _ _ Eu) as T. destruct (unextend_spec _ T D) as (out & Eo & B & Lo & _). assert (ret = out) by congruence. subst out.
  assert (Lf : length (firstn (length value - 6) value) = (length value - 6)%nat) by (rewrite firstn_length; lia). rewrite Lf in *.
  assert (LR : 8 * zlen ret <= 5 * zlen value).
  { unfold zlen. rewrite Lo. pose proof (Nat.mul_div_le ((length value - 6) * 5) 8 ltac:(lia)). lia. }
  destruct (zlen ret =? 33) eqn:R.
  - apply bind_ok in E as (x & Es & E). destruct (hex_decode_bytes _ _ E) as [Bh Lh]. split; [exact Bh|].
    unfold slice in Es. destruct (_ && _) in Es; [|discriminate].
    assert (Ex : x = firstn (Z.to_nat (65 - 1)) (skipn (Z.to_nat 1) (hex_encode ret))) by congruence. rewrite Ex, firstn_length, skipn_length in Lh. assert (length h <= 32)%nat by (change (Z.to_nat (65 - 1)) with 64%nat in Lh; lia). unfold zlen in *. lia.
  - injection E as <-. split; [exact B|lia].
Qed.
Lemma p2pkh_len h : length h = 20%nat -> zlen (p2pkh_script h) = 25.
Proof. intros L. unfold p2pkh_script. rewrite !zlen_app. unfold zlen in *. cbn [length]. lia. Qed.
Lemma p2sh_len h : length h = 20%nat -> zlen (p2sh_script h) = 23.
Proof. intros L. unfold p2sh_script. rewrite !zlen_app. unfold zlen in *. cbn [length]. lia. Qed.
Lemma script_for_len H ap a l : zlen a <= 400 -> script_for H ap a l -> 1 <= zlen l <= 252.
Proof.
  intros La [[_ (h & D & ->)]|(_ & p & h & _ & L & _ & [[_ ->]|(_ & _ & ->)])].
  - destruct (bech32_decode_bound _ _ D) as [_ B]. rewrite zlen_app. change (zlen [0; zlen h mod 256]) with 2. pose proof (zlen_nonneg h). lia.
  - rewrite p2pkh_len by exact L. lia.
  - rewrite p2sh_len by exact L. lia.
Qed.
Lemma sequence_spec lt r : sequence lt r = spec_sequence lt r.
Proof. unfold sequence, spec_sequence. destruct r; [reflexivity|]. destruct (lt =? 0); reflexivity. Qed.
Lemma spec_sequence_range lt r : 0 <= spec_sequence lt r < 2 ^ 32.
Proof. unfold spec_sequence. destruct r; [|destruct (lt =? 0)]; change (2 ^ 32) with 4294967296; lia. Qed.

(** The model input / output with the values of a spec input / output. *)
Definition in_of (s : spec_in) : txin :=
  {| in_type := TypeEmpty; in_txid := s_txid s; in_vout := le_bytes 4 (s_vout s); in_pub := []; in_sig := []; in_seq := le_bytes 4 (s_seq s); in_multi := [] |}.
Definition out_of (s : spec_out) : txout := {| out_amount := le_bytes 8 (s_amount s); out_lock := s_lock s |}.
Definition tx_of (version : Z) (ins : list spec_in) (outs : list spec_out) (lockTime : Z) : tx :=
  {| tx_version := le_bytes 4 version; tx_vins := map in_of ins; tx_vouts := map out_of outs; tx_locktime := le_bytes 4 lockTime; tx_witness := false |}.
Lemma zlen_map {A B} (f : A -> B) l : zlen (map f l) = zlen l.
Proof. unfold zlen. rewrite map_length. reflexivity. Qed.
Lemma zlen_pos {A} (l : list A) : l <> [] -> 1 <= zlen l.
Proof. destruct l; [contradiction|]. intros _. rewrite zlen_cons. pose proof (zlen_nonneg l). lia. Qed.
Lemma made_inputs lt r vins : forall l,
  Forall2 (fun v i => made_in v i /\ in_seq i = le_bytes 4 (sequence lt r)) vins l <-> exists ins, l = map in_of ins /\ Forall2 (spends lt r) vins ins.
Proof.
  induction vins as [|v vs IH]; intros l; split.
  - intros F. inversion F. exists []. split; constructor.
  - intros (ins & -> & F). inversion F. constructor.
  - intros F. inversion F as [|? i ? l' [(A & B & C & D & E & G & K) S] F']; subst. apply IH in F' as (ins & -> & F').
    exists ({| s_txid := in_txid i; s_vout := v_vout v; s_script := []; s_seq := spec_sequence lt r |} :: ins). split.
    + cbn [map]. f_equal. unfold in_of. cbn. rewrite <- sequence_spec. destruct i; cbn in *. subst. reflexivity.
    + constructor; [|exact F']. repeat split; assumption.
  - intros (ins & -> & F). inversion F as [|? s ? ss (A & B & C & D & E) F']; subst. cbn [map]. constructor.
    + unfold made_in, in_of. cbn. rewrite C, E, sequence_spec. repeat split; assumption.
    + apply IH. exists ss. split; [reflexivity|exact F'].
Qed.
Lemma made_outputs H ap vouts : hash_ok H -> prefixes_ok ap -> Forall vout_typed vouts -> forall l,
  Forall2 (fun v o => new_out H ap v = Ok o) vouts l <-> exists outs, l = map out_of outs /\ Forall2 (pays H ap) vouts outs.
Proof.
  intros HH HP FT. induction FT as [|v vs [Ta Tm] FT IH]; intros l; split.
  - intros F. inversion F. exists []. split; constructor.
  - intros (outs & -> & F). inversion F. constructor.
  - intros F. inversion F as [|? o ? l' N F']; subst. apply IH in F' as (outs & -> & F'). apply new_out_iff in N as [A S]; try assumption.
    exists ({| s_amount := v_amount v; s_lock := out_lock o |} :: outs). split.
    + cbn [map]. f_equal. unfold out_of. cbn [s_amount s_lock]. rewrite <- A. destruct o; reflexivity.
    + constructor; [|exact F']. split; [reflexivity|exact S].
  - intros (outs & -> & F). inversion F as [|? s ? ss [A S] F']; subst. cbn [map]. constructor.
    + apply new_out_iff; try assumption. unfold out_of. cbn [out_amount out_lock]. rewrite A. split; [reflexivity|exact S].
    + apply IH. exists ss. split; [reflexivity|exact F'].
Qed.
(** Building succeeds exactly on lists of valid inputs and outputs. *)
Lemma new_empty_spec H ap vins vouts lt r t : hash_ok H -> prefixes_ok ap -> Forall vout_typed vouts ->
  new_empty_tx H ap vins vouts lt r = Ok t <->
  vins <> [] /\ vouts <> [] /\ exists ins outs, Forall2 (spends lt r) vins ins /\ Forall2 (pays H ap) vouts outs /\ t = tx_of 2 ins outs lt.
Proof.
  intros HH HP FT. rewrite new_empty_ok. split.
  - intros (N1 & N2 & V & L & W & Fi & Fo). split; [intros ->; cbv in N1; lia|]. split; [intros ->; cbv in N2; lia|].
    apply made_inputs in Fi as (ins & Ei & Fi). apply made_outputs in Fo as (outs & Eo & Fo); try assumption. exists ins, outs. split; [exact Fi|]. split; [exact Fo|].
    destruct t; cbn in *. subst. reflexivity.
  - intros (N1 & N2 & ins & outs & Fi & Fo & ->). unfold tx_of. cbn [tx_version tx_vins tx_vouts tx_locktime tx_witness].
    split; [apply zlen_pos; exact N1|]. split; [apply zlen_pos; exact N2|].
    split; [reflexivity|]. split; [reflexivity|]. split; [reflexivity|]. split; [apply made_inputs; eauto|apply made_outputs; eauto].
Qed.
Definition in_range (s : spec_in) : Prop := zlen (s_txid s) = 32 /\ 0 <= s_vout s < 2 ^ 32 /\ 0 <= s_seq s < 2 ^ 32.
Definition out_range (s : spec_out) : Prop := 0 <= s_amount s < 2 ^ 64 /\ 1 <= zlen (s_lock s) <= 255.
Lemma ok_in_of s : zlen (s_txid s) = 32 -> ok_in (in_of s).
Proof. intros L. split; [exact L|split; apply zlen_le_bytes]. Qed.
Lemma ok_out_of s : 1 <= zlen (s_lock s) <= 255 -> ok_out (out_of s).
Proof. intros L. split; [apply zlen_le_bytes|exact L]. Qed.
Lemma wire_tx_spec version ins outs lt : Forall (fun s => s_script s = []) ins ->
  wire_tx (le_bytes 4 version) (map (fun i => (i, in_pub i)) (map in_of ins)) (map out_of outs) (le_bytes 4 lt) = wire_spec_tx version ins outs lt.
Proof.
  intros F. unfold wire_tx, wire_spec_tx. rewrite !zlen_map, !map_map. do 3 f_equal.
  f_equal. apply map_ext_in. intros s Hs. rewrite Forall_forall in F. unfold wire_in, wire_spec_in. cbn [fst snd in_pub in_of in_txid in_vout in_seq]. rewrite (F s Hs). reflexivity.
Qed.
Lemma tx_bytes_of sw version ins outs lt : 1 <= zlen ins <= 255 -> 1 <= zlen outs <= 255 ->
  Forall (fun s => zlen (s_txid s) = 32 /\ s_script s = []) ins -> Forall (fun s => 1 <= zlen (s_lock s) <= 255) outs ->
  tx_bytes sw (tx_of version ins outs lt) = Ok (wire_spec_tx version ins outs lt).
Proof.
  intros Ni No Fi Fo. rewrite tx_bytes_wire; cbn [tx_of tx_version tx_vins tx_vouts tx_locktime tx_witness]; rewrite ?zlen_map; try assumption; try reflexivity; try (apply zlen_le_bytes).
  - f_equal. apply wire_tx_spec. eapply Forall_impl; [|exact Fi]. intros s [_ Q]. exact Q.
  - apply Forall_map. eapply Forall_impl; [|exact Fi]. intros s [Q _]. split; [apply ok_in_of; exact Q|]. split; [reflexivity|]. cbn. lia.
  - apply Forall_map. eapply Forall_impl; [|exact Fo]. intros s Q. apply ok_out_of. exact Q.
Qed.
Lemma le_num_small n x : 0 <= x < 256 ^ Z.of_nat n -> le_num (le_bytes n x) = x.
Proof. intros Q. rewrite le_num_le_bytes. apply Z.mod_small, Q. Qed.
Lemma decode_wire_spec_v v sw ins outs lt extra : 0 <= v < 2 ^ 32 -> 1 <= zlen ins <= 255 -> 1 <= zlen outs <= 255 ->
  Forall (fun s => zlen (s_txid s) = 32 /\ s_script s = []) ins -> Forall (fun s => 1 <= zlen (s_lock s) <= 255) outs ->
  decode_v v (wire_spec_tx v ins outs lt ++ extra) sw = match extra with [] => Ok (tx_of v ins outs lt) | _ => Err end.
Proof.
  intros Hv Ni No Fi Fo. rewrite <- (wire_tx_spec v) by (eapply Forall_impl; [|exact Fi]; intros s [_ Q]; exact Q).
  rewrite (decode_wire_v v); rewrite ?zlen_map; try assumption; try reflexivity; try (apply zlen_le_bytes); try (apply le_num_small; exact Hv).
  - destruct extra; [|reflexivity]. f_equal. unfold tx_of. f_equal. rewrite !map_map. apply map_ext. intros s. reflexivity.
  - apply Forall_map. apply Forall_map. eapply Forall_impl; [|exact Fi]. intros s [Q _]. cbn [fst snd]. split; [apply ok_in_of; exact Q|]. split; [cbn; lia|]. split; discriminate.
  - apply Forall_map. eapply Forall_impl; [|exact Fo]. intros s Q. apply ok_out_of. exact Q.
Qed.
Lemma decode_wire_spec sw ins outs lt extra : 1 <= zlen ins <= 255 -> 1 <= zlen outs <= 255 ->
  Forall (fun s => zlen (s_txid s) = 32 /\ s_script s = []) ins -> Forall (fun s => 1 <= zlen (s_lock s) <= 255) outs ->
  decode_tx (wire_spec_tx 2 ins outs lt ++ extra) sw = match extra with [] => Ok (tx_of 2 ins outs lt) | _ => Err end.
Proof. intros. unfold decode_tx. apply decode_wire_spec_v; try assumption. cbv; intuition congruence. Qed.
Lemma shows_tx_of version ins outs lt : 0 <= version < 2 ^ 32 -> 0 <= lt < 2 ^ 32 -> Forall in_range ins -> Forall (fun s => 0 <= s_amount s < 2 ^ 64) outs ->
  shows version ins outs lt (tx_of version ins outs lt).
Proof.
  change (2 ^ 32) with (256 ^ Z.of_nat 4). change (2 ^ 64) with (256 ^ Z.of_nat 8).
  intros Hv Hl Fi Fo. unfold shows, tx_of. cbn [tx_version tx_vins tx_vouts tx_locktime tx_witness]. rewrite !le_num_small by assumption. split; [reflexivity|]. split; [|split; [|split; reflexivity]].
  - clear - Fi. induction Fi as [|s l (A & B & C) F IH]; [constructor|]. cbn [map]. constructor; [|exact IH]. change (2 ^ 32) with (256 ^ Z.of_nat 4) in *.
    unfold shows_in, in_of. cbn [in_txid in_vout in_seq in_type]. rewrite !le_num_small by assumption. repeat split; apply zlen_le_bytes.
  - clear - Fo. induction Fo as [|s l A F IH]; [constructor|]. cbn [map]. constructor; [|exact IH].
    unfold shows_out, out_of. cbn [out_amount out_lock]. rewrite le_num_small by assumption. repeat split; apply zlen_le_bytes.
Qed.
(** The bytes of a transaction with any number of inputs and outputs. *)
Definition trunc_wire (version : Z) (ins : list spec_in) (outs : list spec_out) (lt : Z) : bytes :=
  le_bytes 4 version ++ zlen ins mod 256 :: concat (map wire_spec_in ins) ++ zlen outs mod 256 :: concat (map wire_spec_out outs) ++ le_bytes 4 lt.
Lemma tx_bytes_trunc sw version ins outs lt : 1 <= zlen ins -> 1 <= zlen outs ->
  Forall (fun s => zlen (s_txid s) = 32 /\ s_script s = []) ins -> Forall (fun s => 1 <= zlen (s_lock s) <= 255) outs ->
  tx_bytes sw (tx_of version ins outs lt) = Ok (trunc_wire version ins outs lt).
Proof.
  intros Ni No Fi Fo. unfold tx_bytes, tx_of. cbn [tx_version tx_vins tx_vouts tx_locktime tx_witness]. rewrite !zlen_map.
  replace (zlen ins =? 0) with false by lia. replace (zlen outs =? 0) with false by lia. rewrite !zlen_le_bytes. change (negb (Z.of_nat 4 =? 4)) with false. cbv iota.
  rewrite (mapr_ok _ (fun i => wire_in i (in_pub i))).
  2: { intros i Hi. apply in_map_iff in Hi as (s & <- & Hs). rewrite Forall_forall in Fi. apply in_bytes_empty; [apply ok_in_of, Fi, Hs|reflexivity|cbn; lia]. }
  cbn [bind]. rewrite (mapr_ok _ wire_out).
  2: { intros o Ho. apply in_map_iff in Ho as (s & <- & Hs). rewrite Forall_forall in Fo. apply out_bytes_wire. apply ok_out_of, Fo, Hs. }
  cbn [bind concat app]. unfold trunc_wire, u8. rewrite !map_map. do 4 f_equal. f_equal. apply map_ext_in. intros s Hs. rewrite Forall_forall in Fi. unfold wire_in, wire_spec_in. cbn [in_pub in_of in_txid in_vout in_seq].
  rewrite (proj2 (Fi s Hs)). reflexivity.
Qed.
Lemma spends_ok lt r vins ins : Forall vin_typed vins -> Forall2 (spends lt r) vins ins -> Forall (fun s => zlen (s_txid s) = 32 /\ s_script s = []) ins /\ Forall in_range ins /\ Forall (fun s => is_bytes (s_txid s)) ins.
Proof.
  intros FT F. induction F as [|v s vs ss (A & B & C & D & E) F IH]; [repeat constructor|]. apply Forall_cons_iff in FT as [T FT]. destruct (IH FT) as (X & Y & W). repeat split; constructor; auto.
  - unfold in_range. rewrite C, E. split; [exact B|]. split; [exact T|apply spec_sequence_range].
  - apply hex_decode_bytes in A as [A _]. rewrite <- (rev_involutive (s_txid s)). apply Forall_rev. exact A.
Qed.
Lemma pays_ok H ap vouts outs : Forall vout_typed vouts -> Forall (fun v => zlen (v_addr v) <= 400) vouts -> Forall2 (pays H ap) vouts outs ->
  Forall (fun s => 1 <= zlen (s_lock s) <= 252) outs /\ Forall (fun s => 0 <= s_amount s < 2 ^ 64) outs /\ Forall (fun s => is_bytes (s_lock s)) outs.
Proof.
  intros FT FL F. induction F as [|v s vs ss [A S] F IH]; [repeat constructor|]. apply Forall_cons_iff in FT as [[Ta Tm] FT]. apply Forall_cons_iff in FL as [L FL].
  destruct (IH FT FL) as (X & Y & W). split; [|split]; constructor; auto.
  - eapply script_for_len; eassumption.
  - rewrite A. exact Tm.
  - destruct S as [[_ (h & D & ->)]|(_ & p & h & Bh & _ & _ & [[_ ->]|(_ & _ & ->)])].
    + destruct (bech32_decode_bound _ _ D) as [Bh _]. apply is_bytes_app. split; [|exact Bh]. repeat constructor; try lia; apply Z.mod_pos_bound; lia.
    + unfold p2pkh_script. apply is_bytes_app. split; [repeat constructor; lia|]. apply is_bytes_app. split; [exact Bh|repeat constructor; lia].
    + unfold p2sh_script. apply is_bytes_app. split; [repeat constructor; lia|]. apply is_bytes_app. split; [exact Bh|repeat constructor; lia].
Qed.
Lemma weaken_locks outs : Forall (fun s => 1 <= zlen (s_lock s) <= 252) outs -> Forall (fun s => 1 <= zlen (s_lock s) <= 255) outs.
Proof. intros F. eapply Forall_impl; [|exact F]. cbn. intros; lia. Qed.
Lemma create_trunc H ap vins vouts lt r hexs : hash_ok H -> prefixes_ok ap -> Forall vin_typed vins -> Forall vout_typed vouts -> Forall (fun v => zlen (v_addr v) <= 400) vouts ->
  create_empty H vins vouts lt r ap = Ok hexs <->
  vins <> [] /\ vouts <> [] /\ exists ins outs, Forall2 (spends lt r) vins ins /\ Forall2 (pays H ap) vouts outs /\ hexs = hex_encode (trunc_wire 2 ins outs lt).
Proof.
  intros HH HP TI TO L. unfold create_empty. split.
  - intros E. apply bind_ok in E as (t & Et & E). apply bind_ok in E as (b & Eb & E). assert (hexs = hex_encode b) by congruence. subst hexs. clear E.
    apply new_empty_spec in Et as (N1 & N2 & ins & outs & Fi & Fo & ->); try assumption. split; [exact N1|]. split; [exact N2|]. exists ins, outs. split; [exact Fi|]. split; [exact Fo|]. f_equal.
    rewrite tx_bytes_trunc in Eb; [congruence| | | |].
    + rewrite (Forall2_len _ _ _ Fi). apply zlen_pos, N1.
    + rewrite (Forall2_len _ _ _ Fo). apply zlen_pos, N2.
    + eapply spends_ok; eassumption.
    + apply weaken_locks. eapply pays_ok; eassumption.
  - intros (N1 & N2 & ins & outs & Fi & Fo & ->).
    assert (Et : new_empty_tx H ap vins vouts lt r = Ok (tx_of 2 ins outs lt)) by (apply new_empty_spec; try assumption; repeat split; try assumption; exists ins, outs; auto).
    rewrite Et. cbn [bind]. rewrite tx_bytes_trunc; [reflexivity| | | |].
    + rewrite (Forall2_len _ _ _ Fi). apply zlen_pos, N1.
    + rewrite (Forall2_len _ _ _ Fo). apply zlen_pos, N2.
    + eapply spends_ok; eassumption.
    + apply weaken_locks. eapply pays_ok; eassumption.
Qed.
Lemma trunc_small v ins outs lt : zlen ins <= 255 -> zlen outs <= 255 -> trunc_wire v ins outs lt = wire_spec_tx v ins outs lt.
Proof.
  intros A B. unfold trunc_wire, wire_spec_tx. pose proof (zlen_nonneg ins). pose proof (zlen_nonneg outs). rewrite !Z.mod_small by lia. reflexivity.
Qed.
Lemma concat_bytes {A} (f : A -> bytes) l : Forall (fun x => is_bytes (f x)) l -> is_bytes (concat (map f l)).
Proof. intros F. induction F; [constructor|]. cbn [map concat]. apply is_bytes_app. auto. Qed.
Lemma trunc_bytes v ins outs lt : Forall (fun s => is_bytes (s_txid s) /\ s_script s = []) ins -> Forall (fun s => is_bytes (s_lock s) /\ zlen (s_lock s) <= 255) outs -> is_bytes (trunc_wire v ins outs lt).
Proof.
  intros Fi Fo. unfold trunc_wire.
  assert (MB : forall n, is_byte (n mod 256)) by (intros n; unfold is_byte; apply Z.mod_pos_bound; lia).
  apply is_bytes_app. split; [apply le_bytes_is_bytes|]. constructor; [apply MB|]. apply is_bytes_app. split.
  - apply concat_bytes. eapply Forall_impl; [|exact Fi]. intros s [A B]. unfold wire_spec_in. rewrite B. apply is_bytes_app. split; [exact A|]. apply is_bytes_app. split; [apply le_bytes_is_bytes|]. constructor; [cbv; split; congruence|]. apply le_bytes_is_bytes.
  - constructor; [apply MB|]. apply is_bytes_app. split; [|apply le_bytes_is_bytes]. apply concat_bytes. eapply Forall_impl; [|exact Fo]. intros s [A B]. unfold wire_spec_out. apply is_bytes_app. split; [apply le_bytes_is_bytes|].
    constructor; [unfold is_byte; pose proof (zlen_nonneg (s_lock s)); lia|exact A].
Qed.
Lemma Forall_both {A} (P Q : A -> Prop) l : Forall P l -> Forall Q l -> Forall (fun x => P x /\ Q x) l.
Proof. intros F G. apply Forall_forall. rewrite Forall_forall in F, G. auto. Qed.
