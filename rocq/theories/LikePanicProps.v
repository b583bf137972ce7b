(** C152: exactly when btcLikeTxDriver crashes while it creates a transaction or inserts signatures. *)
From Coq Require Import String ZArith List Bool Lia ZifyBool ZifyNat.
From Verif Require Import Go GoFacts GoFacts2 Rd Base58Model Base58Spec Base58Props Base58Proofs Base58CheckModel Base58CheckSpec Base58CheckProofs Base58CheckProps AddressProofs
  Bech32Model Bech32Spec Bech32Proofs Bech32Text Bech32DecSpec Bech32DecProps SigModel SigDerProps BtcModel BtcSpec BtcProofs BtcTxProofs BtcSigProps BtcVerProps
  FamPanicProps LikeModel LikeProofs LikeProps LikeSigProps LikeInsProps LikeMultiProps LikeWitModel LikeWitProps BtcTxProps Toy.
From Verif Require OntProps.
Import ListNotations.
Open Scope Z_scope.
Ltac Zify.zify_post_hook ::= idtac.

(** ** Creation: specification *)
(** Base58 text of fewer than four bytes, or of the checksum of nothing. *)
Definition base58_short (H : bytes -> bytes) (a : list Z) : Prop := exists r, is_bytes r /\ is_base58_of bitcoin_rs r a /\ (zlen r < 4 \/ r = checked H []).
Definition like_payable (H : bytes -> bytes) (a : list Z) : Prop := exists lock, like_lock H a lock.
(** An address that begins with "tb1" is read as bech32 first, every one as base58check. *)
Definition like_crash (H : bytes -> bytes) (a : list Z) : Prop :=
  (begins (str "tb1") a /\ bech32_crash a) \/ ((begins (str "tb1") a -> bech32_readable a) /\ base58_short H a).

(** ** Lemmas *)
Lemma like_bech32_step a : bech32_decode a = (ret <- like_bech32 a ;; if zlen ret =? 33 then h <- slice (hex_encode ret) 1 65 ;; hex_decode h else Ok ret).
Proof.
  unfold bech32_decode, like_bech32. destruct (scan a 0 false false false 0) as [[[l u] ps]| |]; cbn [bind]; try reflexivity. destruct (u && l); [reflexivity|]. cbv zeta. destruct (_ <? 0); [reflexivity|]. destruct (rev_lookup _) as [v| |]; cbn [bind]; try reflexivity.
  destruct (negb _); [reflexivity|]. destruct (_ <? 6); reflexivity.
Qed.
Lemma like_bech32_bytes a ret : is_bytes a -> like_bech32 a = Ok ret -> is_bytes ret.
Proof.
  intros B E. unfold like_bech32 in E. apply bind_ok in E as ([[l u] ps] & _ & E). destruct (u && l); [discriminate|]. cbv zeta in E. destruct (_ <? 0); [discriminate|]. apply bind_ok in E as (v & R & E). destruct (negb _); [discriminate|]. destruct (_ <? 6); [discriminate|].
  assert (Bs : is_bytes (skipn (Z.to_nat (ps + 1)) a)) by (rewrite <- (firstn_skipn (Z.to_nat (ps + 1)) a) in B; apply is_bytes_app in B; tauto).
  destruct (rev_lookup_cases _ Bs) as [(ds & E' & F)|[E' _]]; [|congruence]. assert (ds = v) by congruence. subst ds. apply stands_all_d5 in F.
  assert (F' : Forall d5 (firstn (List.length v - 6) v)) by (rewrite <- (firstn_skipn (List.length v - 6) v) in F; apply Forall_app in F; tauto).
  destruct (unextend_spec _ (unextend_ok_two _ _ E) F') as (out & Eo & Bo & _). assert (out = ret) by congruence. subst out. exact Bo.
Qed.
Lemma like_bech32_cases a : is_bytes a -> ((exists h, like_bech32 a = Ok h) <-> bech32_readable a) /\ (like_bech32 a = Panic <-> bech32_crash a).
Proof.
  intros B. unfold bech32_crash. rewrite <- bech32_readable_iff, <- bech32_crashes_exactly, like_bech32_step. destruct (like_bech32 a) as [ret| |] eqn:E; cbn [bind].
  - assert (X : exists h, (if zlen ret =? 33 then h <- slice (hex_encode ret) 1 65 ;; hex_decode h else Ok ret) = Ok h).
    { destruct (zlen ret =? 33) eqn:L; [|eauto]. destruct (half_byte ret (like_bech32_bytes _ _ B E) ltac:(lia)) as (h & _ & _ & _ & Q). eauto. }
    destruct X as (h & ->). split; split; eauto; discriminate.
  - split; split; try discriminate; intros (? & Q); discriminate.
  - split; split; try reflexivity; intros (? & Q); discriminate.
Qed.
Lemma decode1_crash H a : hash_ok H -> is_bytes a -> decode_check1 bitcoin_al H a = Panic <-> base58_short H a.
Proof.
  intros HH Ba. change bitcoin_al with btc_alphabet. rewrite (OntProps.decode1_panic H a HH Ba). unfold OntProps.bad_text, base58_short.
  assert (D : forall r, base58_decode bitcoin_al a = Ok r <-> is_bytes r /\ is_base58_of bitcoin_rs r a).
  { intros r. split.
    - intros E. pose proof (base58_encode_decode bitcoin_rs bitcoin_al a r bitcoin_alphabet_ok bitcoin_al_eq Ba E) as [Br En]. split; [exact Br|]. exact (base58_numeral bitcoin_rs bitcoin_al r a bitcoin_alphabet_ok bitcoin_al_eq Br En).
    - intros [Br N]. destruct (base58_decode_encode bitcoin_rs bitcoin_al r bitcoin_alphabet_ok bitcoin_al_eq Br) as (s & E & D). pose proof (base58_numeral bitcoin_rs bitcoin_al _ _ bitcoin_alphabet_ok bitcoin_al_eq Br E) as N'. rewrite (base58_of_unique _ _ _ _ N N'). exact D. }
  split; [intros (r & E & C); apply D in E as [Br N]; eauto|]. intros (r & Br & N & C). exists r. split; [apply D; auto|exact C].
Qed.
Lemma like_out_cases H v : hash_ok H -> is_bytes (v_addr v) -> ((exists o, like_out H v = Ok o) <-> like_payable H (v_addr v)) /\ (like_out H v = Panic <-> like_crash H (v_addr v)).
Proof.
  intros HH Ba. split.
  - split.
    + intros (o & E). apply like_out_iff in E as (s & [_ L] & _); [|assumption..]. exists (s_lock s). exact L.
    + intros (l & L). eexists. apply like_out_iff; [assumption..|]. exists {| s_amount := v_amount v; s_lock := l |}. split; [split; [reflexivity|exact L]|reflexivity].
  - unfold like_out, like_crash. pose proof (is_prefix_begins (str "tb1") (v_addr v)) as PB. destruct (like_bech32_cases (v_addr v) Ba) as [R C]. pose proof (decode1_crash H (v_addr v) HH Ba) as D. cbv zeta.
    assert (T : forall x, ('(prefix, hash) <- decode_check1 bitcoin_al H (v_addr v) ;; if negb (zlen hash =? 20) then Err else
        lock <- (if prefix =? 0x6F then Ok ([0x76; 0xA9; u8 (zlen hash)] ++ hash ++ [0x88; 0xAC]) else if prefix =? 0xC4 then Ok ([0xA9; u8 (zlen hash)] ++ hash ++ [0x87]) else Err) ;; Ok (x ++ [{| lo_amount := le64 (v_amount v); lo_lock := lock |}])) = Panic <-> base58_short H (v_addr v)).
    { intros x. rewrite <- D, bind_panics. split; [|auto]. intros [E|([p h] & _ & E)]; [exact E|]. destruct (negb _); [discriminate|]. destruct (p =? 111); [discriminate|]. destruct (p =? 196); discriminate. }
    destruct (is_prefix (str "tb1") (v_addr v)) eqn:P.
    + assert (B : begins (str "tb1") (v_addr v)) by (apply PB; reflexivity). destruct (like_bech32 (v_addr v)) as [r| |] eqn:E; cbn [bind].
      * rewrite T. assert (bech32_readable (v_addr v)) by (apply R; eauto). assert (~ bech32_crash (v_addr v)) by (intros Q; apply C in Q; discriminate). tauto.
      * assert (~ bech32_readable (v_addr v)) by (intros Q; apply R in Q as (? & Q); discriminate). assert (~ bech32_crash (v_addr v)) by (intros Q; apply C in Q; discriminate). split; [discriminate|tauto].
      * assert (bech32_crash (v_addr v)) by (apply C; reflexivity). tauto.
    + cbn [bind]. rewrite T. assert (~ begins (str "tb1") (v_addr v)) by (intros Q; apply PB in Q; congruence). tauto.
Qed.
Lemma like_in_cases lt r v : ((exists i, like_in lt r v = Ok i) <-> named v) /\ like_in lt r v <> Panic.
Proof.
  unfold like_in, reverse_hex, named. split; [split|].
  - intros (i & E). destruct (zlen (v_txid v) mod 2 =? 1); [discriminate|]. destruct (hex_decode (v_txid v)) as [x| |]; cbn [bind] in E; try discriminate. exists x. split; [reflexivity|]. rewrite zlen_rev in E. destruct (zlen x =? 32) eqn:Q; [lia|discriminate].
  - intros (x & E & L). rewrite E. destruct (hex_decode_bytes _ _ E) as [_ Le]. replace (zlen (v_txid v) mod 2 =? 1) with false; [|symmetry; apply Z.eqb_neq; unfold zlen; rewrite Le, Nat2Z.inj_mul, Z.mul_comm, Z.mod_mul by lia; lia].
    cbn [bind]. rewrite zlen_rev. replace (zlen x =? 32) with true by lia. eauto.
  - destruct (_ =? 1); [discriminate|]. pose proof (hex_decode_not_panic (v_txid v)). destruct (hex_decode _) as [x| |]; cbn [bind]; try discriminate; [destruct (_ =? _); discriminate|congruence].
Qed.
Lemma like_in_bytes_fine s i : like_in_bytes s i <> Panic.
Proof. unfold like_in_bytes. destruct (_ || _); discriminate. Qed.
Lemma like_out_bytes_fine o : like_out_bytes o <> Panic.
Proof. unfold like_out_bytes. destruct (negb _); discriminate. Qed.
Lemma like_ins_cases lt r vins : mapr (like_in lt r) vins <> Panic /\ ((exists i, mapr (like_in lt r) vins = Ok i) <-> Forall named vins).
Proof.
  split; [apply mapr_fine; intros; apply like_in_cases|]. induction vins as [|v vins IH]; cbn [mapr]; [split; [constructor|eauto]|]. destruct (like_in_cases lt r v) as [C _]. split.
  - intros (i & E). apply bind_ok in E as (x & E1 & E). apply bind_ok in E as (y & E2 & _). constructor; [apply C|apply IH]; eauto.
  - intros F. apply Forall_cons_iff in F as [Fv F]. apply C in Fv as (x & ->). apply IH in F as (y & ->). cbn [bind]. eauto.
Qed.

(** ** C152, creation *)
(** Creation crashes exactly when every input names a transaction and the first address that cannot be paid is one that ends the program. *)
Theorem like_creation_crashes_exactly : forall H sha vins vouts lt r, hash_ok H -> Forall (fun v => is_bytes (v_addr v)) vouts ->
  like_create H sha vins vouts lt r = Panic <-> Forall named vins /\ first_bad (like_payable H) (like_crash H) vouts.
Proof.
  intros H sha vins vouts lt r HH B. rewrite <- (outs_panic (like_out H) (like_payable H) (like_crash H) vouts B (fun v => like_out_cases H v HH)). destruct (like_ins_cases lt r vins) as [Ni Oi]. unfold like_create, like_new. rewrite bind_panics. split.
  - intros [E|(t & E & P)].
    + apply bind_panics in E as [E|(ins & E1 & E)]; [contradiction|]. split; [apply Oi; eauto|]. apply bind_panics in E as [E|(? & _ & Q)]; [exact E|discriminate].
    + exfalso. apply bind_ok in E as (ins & E1 & E). apply bind_ok in E as (outs & E2 & E). injection E as <-. apply bind_panics in P as [P|(? & _ & Q)]; [|discriminate]. revert P. unfold like_bytes. cbn [l_vins l_vouts l_wit l_version l_locktime]. destruct (_ =? 0); [discriminate|]. destruct (zlen (concat outs) =? 0); [discriminate|].
      destruct (is_multi _); [discriminate|]. intros P. apply bind_panics in P as [P|(? & _ & P)]; [revert P; apply mapr_fine; intros; apply like_in_bytes_fine|]. apply bind_panics in P as [P|(? & _ & P)]; [revert P; apply mapr_fine; intros; apply like_out_bytes_fine|]. cbn [mapr bind] in P. discriminate.
  - intros [F P]. left. apply Oi in F as (ins & ->). cbn [bind]. rewrite P. reflexivity.
Qed.

(** ** Insertion: specification *)
Definition key_hash_request (u : lunlock) : Prop := lu_redeem u = [] /\ ~ begins (str "0014") (lu_lock u).
(** A request whose signature goes to the witness, and whose redeem script can be read. *)
Definition witness_request (u : lunlock) : Prop := ~ key_hash_request u /\ (lu_redeem u = [] \/ lu_lock u = str "00" \/ exists r, hex_decode (lu_redeem u) = Ok r).
Definition request_fine (u : lunlock) (sp : sigpub) : Prop := whole sp /\ (key_hash_request u /\ ~ zero_part sp \/ witness_request u).
Definition request_crash (u : lunlock) (sp : sigpub) : Prop := whole sp /\ key_hash_request u /\ zero_part sp.
(** A request is reached that has no signature left, or a signature with r or s zero where one is written to the script; those before it were filled. *)
Definition requests_crash (us : list lunlock) (sps : list sigpub) : Prop :=
  exists done u rest before, us = done ++ u :: rest /\ Forall2 request_fine done before /\ (sps = before \/ exists sp after, sps = before ++ sp :: after /\ request_crash u sp).
(** The first request is for a shared lock: 23 bytes in hex, beginning with A9 14 or ending with 87, and a redeem script that ends with CHECKMULTISIG. *)
Definition shared_request (u : lunlock) : Prop :=
  zlen (lu_lock u) = 46 /\ exists lock redeem, hex_decode (lu_lock u) = Ok lock /\ (begins [0xA9; 0x14] lock \/ last lock 0 = 0x87) /\ hex_decode (lu_redeem u) = Ok redeem /\ redeem <> [] /\ last redeem 0 = 0xAE.
(** With a shared lock every signature is written as it is: one of 1 to 32 bytes ends the program, an empty one is refused if there is only one input. *)
Definition shared_crash (one_input : bool) (sps : list sigpub) : Prop :=
  exists before sp after, sps = before ++ sp :: after /\ Forall (fun s => 32 < zlen (sp_sig s) \/ (one_input = false /\ sp_sig s = [])) before /\ 1 <= zlen (sp_sig sp) <= 32.

(** ** Lemmas *)
Lemma witness_trim_fine (r : bytes) : r <> [] -> exists x, witness_trim r = Ok x /\ zlen r <= zlen x.
Proof.
  destruct r as [|a r]; [contradiction|]. intros _. unfold witness_trim. change (idx (a :: r) 0) with (Ok a). cbn [bind]. eexists. split; [reflexivity|]. destruct (_ =? _); rewrite !zlen_cons; lia.
Qed.
Lemma halves (sig : bytes) : 32 <= zlen sig -> slice sig 0 32 = Ok (firstn 32 sig) /\ slice_from sig 32 = Ok (skipn 32 sig) /\ zlen (firstn 32 sig) = 32 /\ zlen (skipn 32 sig) = zlen sig - 32.
Proof.
  intros L. assert (F : zlen (firstn 32 sig) = 32) by (unfold zlen in *; rewrite firstn_length; lia). split; [|split; [|split; [exact F|unfold zlen in *; rewrite skipn_length; lia]]].
  - unfold slice. replace ((0 <=? 0) && (0 <=? 32) && (32 <=? zlen sig)) with true by lia. reflexivity.
  - rewrite <- (firstn_skipn 32 sig) at 1. apply slice_from_post. lia.
Qed.
Lemma witness_script_cases sig pub t : (32 < zlen sig -> exists s, witness_script sig pub t = Ok s /\ 34 <= zlen s) /\ (zlen sig <= 32 -> witness_script sig pub t = Panic).
Proof.
  unfold witness_script. split.
  - intros L. destruct (halves sig ltac:(lia)) as (-> & -> & L1 & L2). cbn [bind].
    destruct (witness_trim_fine (firstn 32 sig)) as (x & -> & Lx); [intros Q; rewrite Q in L1; discriminate|]. cbn [bind].
    destruct (witness_trim_fine (skipn 32 sig)) as (y & -> & _); [intros Q; rewrite Q in L2; change (zlen (@nil Z)) with 0 in L2; lia|]. cbn [bind].
    eexists. split; [reflexivity|]. unfold der_wrap. cbv zeta. rewrite !zlen_app, !zlen_cons. repeat rewrite ?zlen_app, ?zlen_cons. pose proof (zlen_nonneg (@nil Z)). pose proof (zlen_nonneg y). pose proof (zlen_nonneg pub). pose proof (zlen_nonneg [t]). lia.
  - intros L. destruct (Z.eq_dec (zlen sig) 32) as [E|N].
    + destruct (halves sig ltac:(lia)) as (-> & -> & L1 & L2). cbn [bind]. destruct (witness_trim_fine (firstn 32 sig)) as (x & -> & _); [intros Q; rewrite Q in L1; discriminate|]. cbn [bind].
      rewrite skipn_all2 by (unfold zlen in E; lia). reflexivity.
    + assert (S : slice sig 0 32 = Panic) by (apply slice_panic; lia). rewrite S. reflexivity.
Qed.
Lemma zlen_nil_iff {A} (l : list A) : (zlen l =? 0) = true <-> l = [].
Proof. apply zlen_zero. Qed.
Definition wit_sized (w : sigpub) : Prop := sp_sig w = [] \/ 32 < zlen (sp_sig w).
Lemma like_wit_cases w : ((exists x, like_wit_bytes w = Ok x) <-> wit_sized w) /\ (like_wit_bytes w = Panic <-> 1 <= zlen (sp_sig w) <= 32).
Proof.
  unfold like_wit_bytes, wit_sized. destruct (witness_script_cases (sp_sig w) (sp_pub w) 1) as [A B]. pose proof (zlen_nonneg (sp_sig w)). destruct (zlen (sp_sig w) =? 0) eqn:E0.
  - apply zlen_zero in E0. rewrite E0 in *. change (zlen (@nil Z)) with 0. split; [split; [auto|eauto]|split; [discriminate|lia]].
  - destruct (Z.ltb_spec 32 (zlen (sp_sig w))) as [L|L].
    + destruct (A L) as (s & -> & _). cbn [bind]. split; [split; [auto|eauto]|split; [discriminate|lia]].
    + rewrite (B L). cbn [bind]. split; [split; [intros (? & Q); discriminate|intros [Q|Q]; [rewrite Q in E0; discriminate|lia]]|split; [lia|reflexivity]].
Qed.
Lemma like_multi_cases w : ((exists x, like_multi_bytes w = Ok x) <-> 32 < zlen (sp_sig w)) /\ (like_multi_bytes w = Panic <-> 1 <= zlen (sp_sig w) <= 32).
Proof.
  unfold like_multi_bytes. destruct (witness_script_cases (sp_sig w) (sp_pub w) 1) as [A B]. pose proof (zlen_nonneg (sp_sig w)). destruct (zlen (sp_sig w) =? 0) eqn:E0.
  - split; [split; [intros (? & Q); discriminate|lia]|split; [discriminate|lia]].
  - destruct (Z.ltb_spec 32 (zlen (sp_sig w))) as [L|L].
    + destruct (A L) as (s & -> & Ls). cbn [bind]. unfold slice. replace ((0 <=? 0) && (0 <=? zlen s - 34) && (zlen s - 34 <=? zlen s)) with true by lia. split; [split; [auto|eauto]|split; [discriminate|lia]].
    + rewrite (B L). cbn [bind]. split; [split; [intros (? & Q); discriminate|lia]|split; [lia|reflexivity]].
Qed.
(** What the decoder gives. *)
Definition decoded_ok (t : ltx) : Prop :=
  Forall (fun i => zlen (li_txid i) = 32 /\ zlen (li_vout i) = 4) (l_vins t) /\ Forall (fun o => zlen (lo_amount o) = 8) (l_vouts t) /\ Forall wit_sized (l_wit t).
Lemma ltx_ok version ins outs ws lt : Forall in_field ins -> Forall wit_sized ws -> decoded_ok (ltx_of version ins outs ws lt).
Proof.
  intros F W. split; [|split; [|exact W]]; cbn [ltx_of l_vins l_vouts]; apply Forall_forall; intros x I; apply in_map_iff in I as (s & <- & I).
  - rewrite Forall_forall in F. destruct (F _ I) as (_ & L & _). cbn [lin_of li_txid li_vout]. split; [exact L|apply zlen_le_bytes].
  - cbn [lout_of lo_amount]. apply zlen_le_bytes.
Qed.
Lemma like_decoded b t : is_bytes b -> like_decode b = Ok t -> decoded_ok t.
Proof.
  intros B E. destruct (Z.eq_dec (nth 4 b 1) 0) as [N|N].
  - apply like_decode_marked in E as (v & ins & outs & wb & ws & lt & (_ & _ & _ & F & _) & _ & W & _ & _ & ->); [|assumption..]. apply ltx_ok; [exact F|]. clear - W. induction W as [|w s wb ws T W IH]; constructor; [|exact IH]. inversion T as [|? sig pub (rl & sl & rf & sf & r & v & (Lr & _) & (Lv & _) & _ & _ & _ & Q)]; subst; [left; reflexivity|right].
    cbn [sp_sig]. rewrite zlen_app. unfold zlen. rewrite Lr, Lv. reflexivity.
  - apply (like_decode_plain b B N) in E as (v & ins & outs & lt & _ & _ & _ & _ & F & _ & _ & ->). apply ltx_ok; [exact F|constructor].
Qed.
Lemma insert_one_cases n i u sp ws : is_bytes (sp_sig sp) ->
  ((exists x, like_insert_one n i u sp ws = Ok x) <-> request_fine u sp) /\ (like_insert_one n i u sp ws = Panic <-> request_crash u sp).
Proof.
  intros Bs. unfold like_insert_one, request_fine, request_crash, whole. destruct (zlen (sp_sig sp) =? 64) eqn:L1; cbn [negb]; [|split; split; [intros (? & Q); discriminate|lia|discriminate|lia]].
  destruct (zlen (sp_pub sp) =? 33) eqn:L2; cbn [negb]; [|split; split; [intros (? & Q); discriminate|lia|discriminate|lia]].
  assert (W : zlen (sp_sig sp) = 64 /\ zlen (sp_pub sp) = 33) by lia. pose proof (is_prefix_begins (str "0014") (lu_lock u)) as PB. unfold witness_request, key_hash_request. destruct (zlen (lu_redeem u) =? 0) eqn:R0; cbn [andb].
  - pose proof (proj1 (zlen_zero _) R0) as Er. destruct (is_prefix (str "0014") (lu_lock u)) eqn:P; cbv zeta; cbn [lu_redeem lu_lock].
    + assert (B : begins (str "0014") (lu_lock u)) by (apply PB; reflexivity). assert (Q : zlen (lu_lock u) =? 0 = false) by (destruct B as [x ->]; rewrite zlen_app; change (zlen (str "0014")) with 4; pose proof (zlen_nonneg x); lia). rewrite Q. change (beq (str "00") (str "00")) with true. cbv iota. split; [split; [intros _; split; [exact W|]; right; tauto|eauto]|split; [discriminate|tauto]].
    + assert (B : ~ begins (str "0014") (lu_lock u)) by (intros Q; apply PB in Q; discriminate). rewrite R0. unfold encode_script. destruct (encode_sig_cases (sp_sig sp) 1 Bs ltac:(lia)) as [[E Zp]|[(x & E) Zp]]; rewrite E; cbn [bind]; fold (zero_part sp) in Zp.
      * split; split; [intros (? & Q); discriminate|tauto|tauto|reflexivity].
      * split; split; [intros _; split; [exact W|]; left; tauto|eauto|discriminate|tauto].
  - assert (Er : lu_redeem u <> []) by (intros Q; rewrite Q in R0; discriminate). cbv zeta. rewrite R0. destruct (beq (lu_lock u) (str "00")) eqn:Q0.
    + apply beq_eq in Q0. split; [split; [intros _; split; [exact W|]; right; tauto|eauto]|split; [discriminate|tauto]].
    + assert (N0 : lu_lock u <> str "00") by (intros Q; rewrite Q in Q0; discriminate). pose proof (hex_decode_not_panic (lu_redeem u)) as NP. destruct (hex_decode (lu_redeem u)) as [r| |] eqn:E; cbn [bind]; [| |contradiction].
      * split; [split; [intros _; split; [exact W|]; right; split; [tauto|]; right; right; eauto|eauto]|split; [discriminate|tauto]].
      * split; [split; [intros (? & Q); discriminate|]|split; [discriminate|tauto]]. intros (_ & [[[Q _] _]|[_ [Q|[Q|(r & Q)]]]]); [contradiction..|discriminate].
Qed.
Lemma insert_one_wits n i u sp ws i' ws' u' : like_insert_one n i u sp ws = Ok (i', ws', u') -> Forall wit_sized ws -> Forall wit_sized ws'.
Proof.
  intros E F. unfold like_insert_one in E. destruct (zlen (sp_sig sp) =? 64) eqn:L1; cbn [negb] in E; [|discriminate]. destruct (negb _) in E; [discriminate|]. cbv zeta in E.
  assert (No : wit_sized no_sigpub) by (left; reflexivity). assert (Sp : wit_sized sp) by (right; lia).
  assert (P : Forall wit_sized (pad_wits n ws ++ [sp])). { apply Forall_app. split; [|constructor; [exact Sp|constructor]]. unfold pad_wits. destruct (zlen ws =? 0); [|exact F]. apply Forall_forall. intros x I. apply repeat_spec in I. subst x. exact No. }
  match type of E with (if ?c then _ else _) = _ => destruct c end.
  - apply bind_ok in E as (s & _ & E). injection E as _ <- _. destruct (zlen ws =? 0); [exact F|]. apply Forall_app. split; [exact F|constructor; [exact No|constructor]].
  - match type of E with (if ?c then _ else _) = _ => destruct c end; [injection E as _ <- _; exact P|]. apply bind_ok in E as (r & _ & E). injection E as _ <- _. exact P.
Qed.
Lemma insert_loop_like us : forall n ins sps ws, List.length ins = List.length us -> Forall (fun sp => is_bytes (sp_sig sp)) sps -> Forall wit_sized ws ->
  (like_insert_loop n ins us sps ws = Panic <-> requests_crash us sps) /\ forall x ws' us', like_insert_loop n ins us sps ws = Ok (x, ws', us') -> Forall wit_sized ws'.
Proof.
  induction us as [|u us IH]; intros n [|i ins] sps ws L Bs F; try discriminate L; cbn [like_insert_loop].
  - split; [split; [discriminate|]; intros ([|? ?] & ? & ? & ? & Q & _); discriminate|]. intros x ws' us' E. injection E as _ <- _. exact F.
  - injection L as L. destruct sps as [|sp sps].
    + split; [split; [intros _|reflexivity]|discriminate]. exists [], u, us, []. split; [reflexivity|]. split; [constructor|left; reflexivity].
    + apply Forall_cons_iff in Bs as [B1 Bs]. destruct (insert_one_cases n i u sp ws B1) as [O P]. destruct (like_insert_one n i u sp ws) as [[[i' ws1] u']| |] eqn:E; cbn [bind].
      * assert (Rf : request_fine u sp) by (apply O; eauto). pose proof (insert_one_wits _ _ _ _ _ _ _ _ E F) as F1. destruct (IH (S n) ins sps ws1 L Bs F1) as [I1 I2]. split.
        -- rewrite bind_panics, I1. split.
           ++ intros [(done & u0 & rest & before & -> & Fd & C)|([[? ?] ?] & _ & Q)]; [|discriminate]. exists (u :: done), u0, rest, (sp :: before). split; [reflexivity|]. split; [constructor; assumption|]. destruct C as [->|(s & after & -> & C)]; [left; reflexivity|right; exists s, after; auto].
           ++ intros ([|d done] & u0 & rest & before & Q & Fd & C); injection Q as <- Q; inversion Fd as [|? s0 ? before' Fu Fd']; subst.
              ** exfalso. destruct C as [C|(s & after & C & Cr)]; [discriminate|]. injection C as <- _. apply P in Cr. discriminate.
              ** left. exists done, u0, rest, before'. split; [reflexivity|]. split; [exact Fd'|]. destruct C as [C|(s & after & C & Cr)]; cbn [app] in C; injection C as <- C; [left; exact C|right; eauto].
        -- intros x ws' us' Q. apply bind_ok in Q as ([[a b] c] & Q & R). injection R as _ <- _. exact (I2 _ _ _ Q).
      * split; [split; [discriminate|]|discriminate]. intros ([|d done] & u0 & rest & before & Q & Fd & C); injection Q as <- Q; inversion Fd as [|? s0 ? before' Fu Fd']; subst; exfalso.
        -- destruct C as [C|(s & after & C & Cr)]; [discriminate|]. injection C as <- _. apply P in Cr. discriminate.
        -- destruct C as [C|(s & after & C & Cr)]; cbn [app] in C; injection C as <- C; apply O in Fu as (? & ?); discriminate.
      * split; [split; [intros _|reflexivity]|discriminate]. exists [], u, us, []. split; [reflexivity|]. split; [constructor|]. right. exists sp, sps. split; [reflexivity|]. apply P. reflexivity.
Qed.
Lemma all_at_fine l : forall ps, Forall (fun p => 0 <= fst p < zlen l) ps -> exists b, all_at l ps = Ok b /\ (b = true <-> Forall (fun p => nth (Z.to_nat (fst p)) l 0 = snd p) ps).
Proof.
  induction ps as [|[i v] ps IH]; intros F; cbn [all_at]; [exists true; split; [reflexivity|split; [constructor|reflexivity]]|]. apply Forall_cons_iff in F as [Fi F]. cbn [fst] in Fi.
  assert (E : idx l i = Ok (nth (Z.to_nat i) l 0)) by (unfold idx; replace (i <? 0) with false by lia; rewrite (nth_error_nth' l 0) by (unfold zlen in Fi; lia); reflexivity). rewrite E. cbn [bind]. destruct (Z.eqb_spec (nth (Z.to_nat i) l 0) v) as [Q|Q].
  - destruct (IH F) as (b & -> & B). exists b. split; [reflexivity|]. rewrite B. split; [intros G; constructor; assumption|intros G; apply Forall_cons_iff in G; tauto].
  - exists false. split; [reflexivity|]. split; [discriminate|]. intros G. apply Forall_cons_iff in G as [G _]. contradiction.
Qed.
Lemma last_23 (l : bytes) : zlen l = 23 -> last l 0 = nth 22 l 0.
Proof. intros L. destruct l as [|x l] using rev_ind; [discriminate|]. rewrite zlen_app in L. change (zlen [x]) with 1 in L. rewrite last_last, app_nth2 by (unfold zlen in L; lia). replace (22 - List.length l)%nat with 0%nat by (unfold zlen in L; lia). reflexivity. Qed.
Lemma like_is_multi_cases u : like_is_multi (lu_lock u) (lu_redeem u) <> Panic /\ (like_is_multi (lu_lock u) (lu_redeem u) = Ok true <-> shared_request u) /\ like_is_multi (lu_lock u) (lu_redeem u) <> Err.
Proof.
  unfold like_is_multi, shared_request. destruct (zlen (lu_lock u) =? 46) eqn:L; cbn [negb]; [|split; [discriminate|]; split; [split; [discriminate|lia]|discriminate]]. pose proof (hex_decode_not_panic (lu_lock u)) as N1. pose proof (hex_decode_not_panic (lu_redeem u)) as N2.
  destruct (hex_decode (lu_lock u)) as [l| |] eqn:E; [| |contradiction].
  2:{ split; [discriminate|]. split; [|discriminate]. split; [discriminate|]. intros (_ & l & r & Q & _). discriminate. }
  assert (Ll : zlen l = 23) by (destruct (hex_decode_bytes _ _ E) as [_ Q]; unfold zlen in *; lia).
  destruct (all_at_fine l [(0, 0xA9); (1, 0x14)]) as (a & -> & A); [constructor; [cbn [fst]; lia|constructor; [cbn [fst]; lia|constructor]]|]. cbn [bind].
  assert (A' : a = true <-> begins [0xA9; 0x14] l).
  { rewrite A. change (Z.to_nat 0) with 0%nat. split.
    - intros F. apply Forall_cons_iff in F as [F0 F]. apply Forall_cons_iff in F as [F1 _]. cbn [fst snd] in F0, F1. change (Z.to_nat 0) with 0%nat in F0. change (Z.to_nat 1) with 1%nat in F1. destruct l as [|x [|y l]]; try discriminate Ll. cbn [nth] in F0, F1. subst x y. exists l. reflexivity.
    - intros [x ->]. constructor; [reflexivity|constructor; [reflexivity|constructor]]. }
  destruct (all_at_fine l [(22, 0x87)]) as (c & Ec & C); [constructor; [cbn [fst]; lia|constructor]|]. assert (C' : c = true <-> last l 0 = 0x87). { rewrite C, last_23 by exact Ll. split; [intros F; apply Forall_cons_iff in F as [F _]; exact F|intros F; constructor; [exact F|constructor]]. }
  set (both := if a then Ok true else all_at l [(22, 0x87)]). assert (X : both = Ok (a || c)) by (unfold both; destruct a; [reflexivity|exact Ec]). rewrite X. cbn [bind]. clear X both.
  assert (X : a || c = true <-> begins [0xA9; 0x14] l \/ last l 0 = 0x87) by (rewrite orb_true_iff, A', C'; reflexivity). destruct (a || c); cbn [negb].
  - destruct (hex_decode (lu_redeem u)) as [r| |] eqn:Er; [| |contradiction].
    + split; [discriminate|]. split; [|discriminate]. split.
      * intros Q. injection Q as Q. apply andb_true_iff in Q as [Q1 Q2]. split; [lia|]. exists l, r. split; [reflexivity|]. split; [apply X; reflexivity|]. split; [reflexivity|]. split; [intros W; rewrite W in Q1; discriminate|lia].
      * intros (_ & l' & r' & _ & _ & Q & Nr & La). assert (r' = r) by congruence. subst r'. f_equal. apply andb_true_iff. split; [|lia]. destruct (zlen r =? 0) eqn:Q0; [apply zlen_zero in Q0; contradiction|reflexivity].
    + split; [discriminate|]. split; [|discriminate]. split; [discriminate|]. intros (_ & l' & r' & _ & _ & Q & _). discriminate.
  - split; [discriminate|]. split; [|discriminate]. split; [discriminate|]. intros (_ & l' & r' & Q & Q' & _). assert (l' = l) by congruence. subst l'. apply X in Q'. discriminate.
Qed.
Lemma wits_panic (f : sigpub -> res bytes) (fine : sigpub -> Prop) l : (forall w, ((exists x, f w = Ok x) <-> fine w) /\ (f w = Panic <-> 1 <= zlen (sp_sig w) <= 32)) ->
  mapr f l = Panic <-> exists before sp after, l = before ++ sp :: after /\ Forall fine before /\ 1 <= zlen (sp_sig sp) <= 32.
Proof.
  intros F. rewrite mapr_panics_at. split; intros (pre & x & post & -> & G & P); exists pre, x, post; (split; [reflexivity|]; split; [|apply F; exact P]); eapply Forall_impl; try exact G; intros w; apply F.
Qed.
Lemma ok_all {A B} (f : A -> res B) l : Forall (fun x => exists y, f x = Ok y) l -> exists r, mapr f l = Ok r.
Proof. induction 1 as [|x l (y & E) _ (r & IH)]; cbn [mapr]; [eauto|]. rewrite E, IH. cbn [bind]. eauto. Qed.
Lemma like_in_bytes_ok s ins : Forall (fun i => zlen (li_txid i) = 32 /\ zlen (li_vout i) = 4) ins -> exists r, mapr (like_in_bytes s) ins = Ok r.
Proof. intros F. apply ok_all. eapply Forall_impl; [|exact F]. intros i [A B]. unfold like_in_bytes. replace (negb (zlen (li_txid i) =? 32) || negb (zlen (li_vout i) =? 4)) with false by lia. eauto. Qed.
Lemma like_out_bytes_ok outs : Forall (fun o => zlen (lo_amount o) = 8) outs -> exists r, mapr like_out_bytes outs = Ok r.
Proof. intros F. apply ok_all. eapply Forall_impl; [|exact F]. intros o A. cbn beta in A. unfold like_out_bytes. rewrite A. cbn. eauto. Qed.
(** Writing out a transaction crashes only for a witness of 1 to 32 bytes that is reached. *)
Lemma like_bytes_sized sha t : Forall wit_sized (l_wit t) -> like_bytes sha t <> Panic.
Proof.
  intros F P. unfold like_bytes in P. destruct (_ =? 0) in P; [discriminate|]. destruct (_ =? 0) in P; [discriminate|]. destruct (is_multi t).
  - destruct (_ =? 0) in P; [discriminate|]. apply bind_panics in P as [P|(? & _ & P)]; [revert P; apply mapr_fine; intros; apply like_in_bytes_fine|]. apply bind_panics in P as [P|(? & _ & P)]; [revert P; apply mapr_fine; intros; apply like_out_bytes_fine|]. apply bind_panics in P as [P|(? & _ & P)]; [|discriminate].
    revert P. apply mapr_fine. intros w I Q. apply like_multi_cases in Q. rewrite Forall_forall in F. destruct (F _ I) as [W|W]; [rewrite W in Q; change (zlen (@nil Z)) with 0 in Q; lia|lia].
  - apply bind_panics in P as [P|(? & _ & P)]; [revert P; apply mapr_fine; intros; apply like_in_bytes_fine|]. apply bind_panics in P as [P|(? & _ & P)]; [revert P; apply mapr_fine; intros; apply like_out_bytes_fine|]. apply bind_panics in P as [P|(? & _ & P)]; [|discriminate].
    revert P. apply mapr_fine. intros w I Q. apply like_wit_cases in Q. rewrite Forall_forall in F. destruct (F _ I) as [W|W]; [rewrite W in Q; change (zlen (@nil Z)) with 0 in Q; lia|lia].
Qed.
Lemma like_bytes_shared sha t r ws : decoded_ok t -> r <> [] -> last r 0 = 0xAE -> l_vins t <> [] -> l_vouts t <> [] -> ws <> [] ->
  like_bytes sha {| l_version := l_version t; l_vins := upd (l_vins t) 0 (set_script r); l_vouts := l_vouts t; l_wit := ws; l_locktime := l_locktime t |} = Panic <-> shared_crash (zlen (l_vins t) =? 1) ws.
Proof.
  intros (Fi & Fo & _) Nr La Ni No Nw. destruct (l_vins t) as [|i ins] eqn:Ei; [contradiction|]. unfold like_bytes, is_multi, shared_crash. cbn [l_vins l_vouts l_wit l_version l_locktime upd].
  assert (Fi' : Forall (fun i => zlen (li_txid i) = 32 /\ zlen (li_vout i) = 4) (set_script r i :: ins)) by (apply Forall_cons_iff in Fi as [A B]; constructor; [exact A|exact B]).
  rewrite !zlen_cons. pose proof (zlen_nonneg ins). replace (1 + zlen ins =? 0) with false by lia. destruct (zlen (l_vouts t) =? 0) eqn:Q; [apply zlen_zero in Q; contradiction|]. clear Q.
  destruct ins as [|j ins].
  - change (zlen (@nil lin)) with 0. cbn [set_script li_script]. destruct (zlen r =? 0) eqn:Q; [apply zlen_zero in Q; contradiction|]. clear Q. rewrite La. change (174 =? 174) with true. cbn [negb andb]. destruct (zlen ws =? 0) eqn:Q; [apply zlen_zero in Q; contradiction|]. clear Q.
    destruct (like_in_bytes_ok (redeem_hash sha) _ Fi') as (x & ->). destruct (like_out_bytes_ok _ Fo) as (y & ->). cbn [bind]. rewrite bind_panics, (wits_panic like_multi_bytes (fun w => 32 < zlen (sp_sig w)) ws like_multi_cases). split.
    + intros [(pre & sp & post & E & F & L)|(? & _ & Q)]; [|discriminate]. exists pre, sp, post. split; [exact E|]. split; [|exact L]. eapply Forall_impl; [|exact F]. intros w A. left. exact A.
    + intros (pre & sp & post & E & F & L). left. exists pre, sp, post. split; [exact E|]. split; [|exact L]. eapply Forall_impl; [|exact F]. intros w [A|[A _]]; [exact A|discriminate].
  - destruct (like_in_bytes_ok (fun s => s) _ Fi') as (x & ->). destruct (like_out_bytes_ok _ Fo) as (y & ->). cbn [bind]. rewrite bind_panics, (wits_panic like_wit_bytes wit_sized ws like_wit_cases). rewrite zlen_cons in *. pose proof (zlen_nonneg ins). replace (1 + (1 + zlen ins) =? 1) with false by lia. split.
    + intros [(pre & sp & post & E & F & L)|(? & _ & Q)]; [|discriminate]. exists pre, sp, post. split; [exact E|]. split; [|exact L]. eapply Forall_impl; [|exact F]. intros w [A|A]; auto.
    + intros (pre & sp & post & E & F & L). left. exists pre, sp, post. split; [exact E|]. split; [|exact L]. eapply Forall_impl; [|exact F]. intros w [A|[_ A]]; [right|left]; exact A.
Qed.

(** ** C152, insertion *)
Theorem like_insertion_crashes_exactly : forall sha txHex sps us, Forall (fun sp => is_bytes (sp_sig sp)) sps ->
  like_insert sha txHex sps us = Panic <->
  exists b, hex_decode txHex = Ok b /\
    (like_decode b = Panic \/
     exists t u more, like_decode b = Ok t /\ us = u :: more /\ zlen (l_vins t) = zlen us /\ l_vouts t <> [] /\ sps <> [] /\
       (shared_request u /\ shared_crash (zlen us =? 1) (l_wit t ++ sps) \/ ~ shared_request u /\ requests_crash us sps)).
Proof.
  intros sha txHex sps us Bs. unfold like_insert. pose proof (hex_decode_not_panic txHex) as HN. destruct (hex_decode txHex) as [b| |] eqn:E; cbn [bind]; [| |contradiction].
  2:{ split; [discriminate|]. intros (b & Q & _). discriminate. }
  assert (X : forall P : bytes -> Prop, (exists b0, Ok b = Ok b0 /\ P b0) <-> P b) by (intros P; split; [intros (b0 & Q & W); assert (b0 = b) by congruence; subst b0; exact W|eauto]). rewrite X. clear X.
  destruct (like_decode b) as [t| |] eqn:D; cbn [bind]; [| |split; auto].
  2:{ split; [discriminate|]. intros [Q|(t & u & more & Q & _)]; discriminate. }
  pose proof (like_decoded b t (hex_of _ _ E) D) as Dk. destruct us as [|u more]; [split; [discriminate|]; intros [Q|(? & ? & ? & _ & Q & _)]; discriminate|].
  destruct (zlen (u :: more) =? 0) eqn:Q0; [apply zlen_zero in Q0; discriminate|]. clear Q0.
  destruct (zlen sps =? 0) eqn:Qs. { apply zlen_zero in Qs. split; [discriminate|]. intros [Q|(? & ? & ? & _ & _ & _ & _ & Q & _)]; [discriminate|contradiction]. }
  assert (Ns : sps <> []) by (intros Q; rewrite Q in Qs; discriminate). 
  destruct (zlen (l_vins t) =? 0) eqn:Qi. { split; [discriminate|]. intros [Q|(t' & ? & ? & Q & _ & L & _)]; [discriminate|]. assert (t' = t) by congruence. subst t'. rewrite zlen_cons in L. pose proof (zlen_nonneg more). lia. }
  destruct (zlen (l_vouts t) =? 0) eqn:Qo. { apply zlen_zero in Qo. split; [discriminate|]. intros [Q|(t' & ? & ? & Q & _ & _ & No & _)]; [discriminate|]. assert (t' = t) by congruence. subst t'. contradiction. }
  assert (No : l_vouts t <> []) by (intros Q; rewrite Q in Qo; discriminate). assert (Ni : l_vins t <> []) by (intros Q; rewrite Q in Qi; discriminate).
  destruct (zlen (l_vins t) =? zlen (u :: more)) eqn:L; cbn [negb]. 2:{ split; [discriminate|]. intros [Q|(t' & ? & ? & Q & _ & L' & _)]; [discriminate|]. assert (t' = t) by congruence. subst t'. lia. }
  assert (Lz : zlen (l_vins t) = zlen (u :: more)) by lia. cbv zeta.
  assert (X : (Ok t = Panic \/ exists t0 u0 more0, Ok t = Ok t0 /\ u :: more = u0 :: more0 /\ zlen (l_vins t0) = zlen (u :: more) /\ l_vouts t0 <> [] /\ sps <> [] /\
      (shared_request u0 /\ shared_crash (zlen (u :: more) =? 1) (l_wit t0 ++ sps) \/ ~ shared_request u0 /\ requests_crash (u :: more) sps)) <->
    (shared_request u /\ shared_crash (zlen (u :: more) =? 1) (l_wit t ++ sps) \/ ~ shared_request u /\ requests_crash (u :: more) sps)).
  { split; [intros [Q|(t0 & u0 & m0 & Q1 & Q2 & _ & _ & _ & W)]; [discriminate|]; assert (t0 = t /\ u0 = u) as [-> ->] by (split; congruence); exact W|]. intros W. right. exists t, u, more. auto 8. }
  rewrite X. clear X. destruct (like_is_multi_cases u) as (NP & M & NE). destruct (like_is_multi (lu_lock u) (lu_redeem u)) as [m| |]; cbn [bind]; [|contradiction..]. destruct m.
  - assert (Sh : shared_request u) by (apply M; reflexivity). pose proof Sh as (_ & lk & r & _ & _ & Er & Nr & La). rewrite Er. cbn [bind]. rewrite bind_panics, (like_bytes_shared sha t r (l_wit t ++ sps) Dk Nr La Ni No), Lz by (destruct (l_wit t); [exact Ns|discriminate]). split; [intros [Q|(? & _ & Q)]; [left; auto|discriminate]|]. intros [[_ Q]|[Q _]]; [left; exact Q|contradiction].
  - assert (Sh : ~ shared_request u) by (intros Q; apply M in Q; discriminate). destruct Dk as (Fi & Fo & Fw). destruct (insert_loop_like (u :: more) 0 (l_vins t) sps (l_wit t)) as [I1 I2]; [unfold zlen in Lz; lia|exact Bs|exact Fw|]. rewrite bind_panics, I1. split.
    + intros [Q|([[ins ws] us'] & Q & P)]; [right; auto|]. exfalso. apply bind_panics in P as [P|(? & _ & P)]; [|discriminate]. revert P. apply like_bytes_sized. exact (I2 _ _ _ Q).
    + intros [[Q _]|[_ Q]]; [contradiction|left; exact Q].
Qed.

(** ** Concrete cases *)
Definition ex_one : vout := {| v_addr := str "1"; v_amount := 7 |}.
(** The text "1" is base58 of a single byte: after two good outputs it ends the program. *)
Example like_creation_crash_example : Forall (fun v => is_bytes (v_addr v)) (ex_like_vouts ++ [ex_one]) /\ Forall named ex_vins /\ first_bad (like_payable toy_hash) (like_crash toy_hash) (ex_like_vouts ++ [ex_one]).
Proof.
  assert (B : Forall (fun v => is_bytes (v_addr v)) (ex_like_vouts ++ [ex_one])) by (constructor; [apply is_bytes_b; vm_compute; reflexivity|constructor; [apply is_bytes_b; vm_compute; reflexivity|constructor; [apply is_bytes_b; vm_compute; reflexivity|constructor]]]).
  split; [exact B|]. apply (like_creation_crashes_exactly toy_hash (fun _ => []) ex_vins _ 7 false toy_hash_ok B). vm_compute. reflexivity.
Qed.
(** So does "tb1" followed by a correct checksum of nothing. *)
Example like_creation_tb1_example : like_create toy_hash (fun _ => []) ex_vins [{| v_addr := str "tb1cy0q7p"; v_amount := 7 |}] 7 false = Panic.
Proof. vm_compute. reflexivity. Qed.
Definition ex_like_hex : list Z := hex_encode (consensus_tx 2 ex_like_ins [ex_like_out] 3).
(** Two signatures for three requests; a zero r for the first request. *)
Example like_insertion_crash_examples : Forall (fun sp => is_bytes (sp_sig sp)) [ex_like_sp; ex_like_sp] /\ requests_crash ex_like_us [ex_like_sp; ex_like_sp] /\
  like_insert (fun _ => zeros 32) ex_like_hex [ex_like_sp; ex_like_sp] ex_like_us = Panic /\
  like_insert (fun _ => zeros 32) ex_like_hex [{| sp_sig := zeros 32 ++ repeat 1 32; sp_pub := ex_pub |}; ex_like_sp; ex_like_sp] ex_like_us = Panic /\
  exists r, like_insert (fun _ => zeros 32) ex_like_hex [ex_like_sp; ex_like_sp; ex_like_sp] ex_like_us = Ok r.
Proof.
  assert (B : Forall (fun sp => is_bytes (sp_sig sp)) [ex_like_sp; ex_like_sp]) by (constructor; [apply is_bytes_b; vm_compute; reflexivity|constructor; [apply is_bytes_b; vm_compute; reflexivity|constructor]]).
  assert (P : like_insert (fun _ => zeros 32) ex_like_hex [ex_like_sp; ex_like_sp] ex_like_us = Panic) by (vm_compute; reflexivity).
  split; [exact B|]. split; [|split; [exact P|]; split; [vm_compute; reflexivity|eexists; vm_compute; reflexivity]].
  apply like_insertion_crashes_exactly in P as (b & E & [Q|(t & u & more & D & Eu & _ & _ & _ & [[Sh _]|[_ R]])]); [| |exact R|exact B].
  - exfalso. unfold ex_like_hex in E. rewrite hex_decode_encode in E by exact ex_like_bytes. injection E as <-. vm_compute in Q. discriminate Q.
  - exfalso. injection Eu as <- _. destruct Sh as (L & _). vm_compute in L. discriminate L.
Qed.
(** A shared lock with one good signature and one of 20 bytes. *)
Example like_shared_crash_example : shared_request ex_multi_u /\ shared_crash true [ex_like_sp; {| sp_sig := repeat 1 20; sp_pub := [] |}] /\
  like_insert (fun _ => zeros 32) (hex_encode (consensus_tx 2 [ex_like_in 1] [ex_like_out] 3)) [ex_like_sp; {| sp_sig := repeat 1 20; sp_pub := [] |}] [ex_multi_u] = Panic.
Proof.
  split; [apply like_is_multi_cases; vm_compute; reflexivity|]. split; [|vm_compute; reflexivity]. exists [ex_like_sp], {| sp_sig := repeat 1 20; sp_pub := [] |}, []. split; [reflexivity|]. split; [constructor; [left; vm_compute; reflexivity|constructor]|]. cbv. split; discriminate.
Qed.
Print Assumptions like_creation_crashes_exactly.
Print Assumptions like_insertion_crashes_exactly.
